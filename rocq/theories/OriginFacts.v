(** The words on the emitter's stack come from the tokens of what it visits. *)
From Verif Require Import Chars Lexer Ast Grammar Types Visitor Emitter EmitSpec TypeFacts EmitTypes EmitProgram EmitInv EmitErase EmitSig EmitOk EmitSteps
  Print EmitRange Origin.
Local Open Scope nat_scope.

Scheme spelt_ind2 := Induction for spelt Sort Prop with spelt_fields_ind2 := Induction for spelt_fields Sort Prop.
Combined Scheme spelt_mutind from spelt_ind2, spelt_fields_ind2.

Definition one (w x : str) : nat := if word_dec x w then 1 else 0.
Lemma occ_nil w : occurrences w [] = 0. Proof. reflexivity. Qed.
Lemma occ_cons w x l : occurrences w (x :: l) = one w x + occurrences w l.
Proof. unfold occurrences, one. cbn [count_occ]. destruct (word_dec x w); reflexivity. Qed.
Lemma occ_app w a b : occurrences w (a ++ b) = occurrences w a + occurrences w b.
Proof. apply count_occ_app. Qed.
Definition fewer (a b : list str) : Prop := forall w, occurrences w a <= occurrences w b.
Ltac fewer := unfold fewer in *; let w := fresh "w" in intro w; repeat match goal with H : forall x : str, occurrences _ _ <= _ |- _ => specialize (H w) end;
  rewrite ?occ_app, ?occ_cons, ?occ_nil, ?occ_app, ?occ_cons, ?occ_nil in *; repeat rewrite ?occ_app, ?occ_cons, ?occ_nil in *; lia.

(** ** Types on the stack *)
Scheme spelt_sr_ind2 := Induction for spelt_sr Sort Prop with spelt_srs_ind2 := Induction for spelt_srs Sort Prop.
Combined Scheme spelt_sr_mutind from spelt_sr_ind2, spelt_srs_ind2.

Lemma spelt_srs_app a wa b wb : spelt_srs a wa -> spelt_srs b wb -> spelt_srs (a ++ b) (wa ++ wb).
Proof. induction 1 as [|t l ws ws' Ht _ IH]; intro Hb; [exact Hb|]. rewrite <- app_assoc. constructor; auto. Qed.
(** the words left when [t] is converted *)
Definition converts (t : sr_type) (ws : list str) : Prop :=
  forall ty, type_from t = Some ty -> exists ws', spelt ty ws' /\ fewer ws' ws.
Definition all_convert (l : list sr_type) (ws : list str) : Prop := forall r a q, l = r ++ a :: q ->
  exists w1 w2 w3, ws = w1 ++ w2 ++ w3 /\ converts a w2 /\ (forall r' b, r = r' ++ [b] -> exists v1 v2, w1 = v1 ++ v2 /\ converts b v2).
Lemma converts_all : (forall t ws, spelt_sr t ws -> converts t ws) /\ (forall l ws, spelt_srs l ws -> all_convert l ws).
Proof.
  apply spelt_sr_mutind.
  - intros n subs addr ws wa _ IH Ha ty H. destruct (str_assoc n base_types) as [b|] eqn:Eb.
    { pose proof Eb as Eb'. apply base_assoc in Eb. rewrite (type_from_base _ _ _ _ Eb) in H. injection H as <-. exists [n]. split; [now constructor|fewer]. }
    rewrite base_assoc_none in Eb. destruct (constructor_dec n) as [Hc|Hc].
    + destruct Hc as [-> |[-> |[-> |[-> | ->]]]].
      * rewrite type_from_option in H. destruct (snoc_inv subs) as [-> |(r & a & ->)]; [discriminate|]. rewrite rev_map_snoc in H.
        destruct (type_from a) as [ta|] eqn:Ea; [|discriminate]. injection H as <-. destruct (IH r a [] eq_refl) as (w1 & w2 & w3 & -> & Hx & _).
        destruct (Hx _ Ea) as (w' & Hw & Hf). exists (lit "Option" :: w'). split; [now apply sp_option|fewer].
      * rewrite type_from_list in H. destruct (snoc_inv subs) as [-> |(r & a & ->)]; [discriminate|]. rewrite rev_map_snoc in H.
        destruct (type_from a) as [ta|] eqn:Ea; [|discriminate]. injection H as <-. destruct (IH r a [] eq_refl) as (w1 & w2 & w3 & -> & Hx & _).
        destruct (Hx _ Ea) as (w' & Hw & Hf). exists (lit "List" :: w'). split; [now apply sp_list|fewer].
      * rewrite type_from_pair in H. destruct (snoc_inv subs) as [-> |(r & a & ->)]; [discriminate|]. rewrite rev_map_snoc in H.
        destruct (type_from a) as [ta|] eqn:Ea; [|discriminate]. destruct (snoc_inv r) as [-> |(r' & b & ->)]; [discriminate|]. rewrite rev_map_snoc in H.
        destruct (type_from b) as [tb|] eqn:Eb'; [|discriminate]. injection H as <-. destruct (IH _ a [] eq_refl) as (w1 & w2 & w3 & -> & Hx & Hy).
        destruct (Hx _ Ea) as (wx & Hw & Hf). destruct (Hy r' b eq_refl) as (v1 & v2 & -> & Hb). destruct (Hb _ Eb') as (wy & Hwy & Hfy).
        exists (lit "Pair" :: wy ++ wx). split; [now apply sp_pair|fewer].
      * rewrite type_from_map in H. destruct (snoc_inv subs) as [-> |(r & a & ->)]; [discriminate|]. rewrite rev_map_snoc in H.
        destruct (type_from a) as [ta|] eqn:Ea; [|discriminate]. destruct (snoc_inv r) as [-> |(r' & b & ->)]; [discriminate|]. rewrite rev_map_snoc in H.
        destruct (type_from b) as [tb|] eqn:Eb'; [|discriminate]. injection H as <-. destruct (IH _ a [] eq_refl) as (w1 & w2 & w3 & -> & Hx & Hy).
        destruct (Hx _ Ea) as (wx & Hw & Hf). destruct (Hy r' b eq_refl) as (v1 & v2 & -> & Hb). destruct (Hb _ Eb') as (wy & Hwy & Hfy).
        exists (lit "Map" :: wy ++ wx). split; [now apply sp_map|fewer].
      * rewrite type_from_bystr20 in H. injection H as <-. destruct Ha as [|a wf Hwf].
        -- exists [lit "ByStr20"]. split; [apply sp_bystr20|fewer].
        -- exists (lit "ByStr20" :: kind_words (a_type_name a) ++ wf). split; [now apply sp_address|fewer].
    + rewrite type_from_other in H by assumption. injection H as <-. assert (N20 : n <> lit "ByStr20") by (intros ->; apply Hc; unfold constructor_name; tauto).
      destruct (size_of n) as [k|] eqn:Es; exists [n]; (split; [|fewer]); [apply sp_sized; now apply size_of_spec|apply sp_other].
  - intros r a q E. destruct r; discriminate.
  - intros t l ws ws' _ IHt _ IHl r a q E. destruct r as [|x r]; injection E as -> ->.
    + exists [], ws, ws'. split; [reflexivity|]. split; [exact IHt|]. intros r' b E. destruct r'; discriminate.
    + destruct (IHl r a q eq_refl) as (w1 & w2 & w3 & -> & H1 & H2). exists (ws ++ w1), w2, w3. split; [now rewrite !app_assoc|]. split; [exact H1|].
      intros r' b E. destruct r' as [|y r']; injection E as -> E.
      * subst r. exists [], (ws ++ w1). split; [reflexivity|]. intros ty Hty. destruct (IHt ty Hty) as (w' & Hw & Hf). exists w'. split; [exact Hw|fewer].
      * destruct (H2 r' b E) as (v1 & v2 & -> & Hb). exists (ws ++ v1), v2. split; [now rewrite app_assoc|exact Hb].
Qed.

(** ** The stack *)
Inductive spelt_stack : list stack_object -> list str -> Prop :=
| sk_nil : spelt_stack [] []
| sk_cons o l ws ws' : spelt_object o ws -> spelt_stack l ws' -> spelt_stack (o :: l) (ws ++ ws').
Definition stk (s : sr_state) (ws : list str) : Prop := spelt_stack (es_stack s) ws.

Section Emit.
  Context (debug : stack_object -> str).
  (** What an error shows: nothing, or an object spelled with the words [ws]. *)
  Definition told (x : str) (ws : list str) : Prop :=
    exists what found, In what [lit "symbol name"; lit "variable declaration"; lit "type definition"]
      /\ x = lit "Expected " ++ what ++ lit ", but found " ++ found ++ lit "."
      /\ (found = lit "nothing" \/ exists o w, found = debug o /\ spelt_object o w /\ fewer w ws).
  Lemma told_more x w w' : told x w -> fewer w w' -> told x w'.
  Proof.
    intros (what & found & Hw & E & H) Hf. exists what, found. split; [exact Hw|]. split; [exact E|].
    destruct H as [H|(o & wo & H & Ho & Hle)]; [left; exact H|right; exists o, wo]. split; [exact H|]. split; [exact Ho|fewer].
  Qed.
(** [m] needs no other words than [e] and those on the stack; [R] gives the words
    of its result. *)
Definition keeps {A} (R : A -> list str -> Prop) (e : list str) (m : EM A) : Prop := forall s ws r s',
  stk s ws -> m s = Ret r s' -> exists ws', stk s' ws' /\
  match r with Ok a => exists wa, R a wa /\ fewer (wa ++ ws') (e ++ ws) | Err x => fewer ws' (e ++ ws) /\ told x (e ++ ws) end.
Definition none {A} (_ : A) (ws : list str) : Prop := ws = [].

Lemma keeps_ret {A} (R : A -> list str -> Prop) e a wa : R a wa -> fewer wa e -> keeps R e (ret a).
Proof. intros Ha Hf s ws r s' Hs E. injection E as <- <-. exists ws. split; [exact Hs|]. exists wa. split; [exact Ha|fewer]. Qed.
Lemma keeps_done {A} e (a : A) : keeps none e (ret a).
Proof. apply (keeps_ret _ _ _ []); [reflexivity|fewer]. Qed.
Lemma keeps_panic {A} (R : A -> list str -> Prop) e : keeps R e panic.
Proof. intros s ws r s' Hs E. discriminate. Qed.
Lemma keeps_more {A} (R : A -> list str -> Prop) e e' m : fewer e e' -> keeps R e m -> keeps R e' m.
Proof.
  intros Hf Hm s ws r s' Hs E. destruct (Hm s ws r s' Hs E) as (ws' & Hs' & H). exists ws'. split; [exact Hs'|].
  destruct r as [a|x].
  - destruct H as (wa & Ha & H). exists wa. split; [exact Ha|fewer].
  - destruct H as [H Ht]. split; [fewer|]. eapply told_more; [exact Ht|fewer].
Qed.
Lemma keeps_bind_ok {A B} (R : A -> list str -> Prop) (Q : B -> list str -> Prop) e1 e2 e (m : EM A) (k : result A -> EM B) : keeps R e1 m ->
  (forall a wa, R a wa -> keeps Q (wa ++ e2) (k (Ok a))) -> fewer (e1 ++ e2) e ->
  forall s ws a s1 r s', stk s ws -> m s = Ret (Ok a) s1 -> k (Ok a) s1 = Ret r s' -> exists w2, stk s' w2 /\
    match r with Ok a => exists wa, Q a wa /\ fewer (wa ++ w2) (e ++ ws) | Err x => fewer w2 (e ++ ws) /\ told x (e ++ ws) end.
Proof.
  intros Hm Hk Hf s ws a s1 r s' Hs E1 E. destruct (Hm s ws _ s1 Hs E1) as (w1 & Hs1 & wa & Ha & Hfa).
  destruct (Hk a wa Ha s1 w1 r s' Hs1 E) as (w2 & Hs2 & H2). exists w2. split; [exact Hs2|]. destruct r as [b|y].
  - destruct H2 as (wb & Hb & H2). exists wb. split; [exact Hb|fewer].
  - destruct H2 as [H2 Ht]. split; [fewer|]. eapply told_more; [exact Ht|fewer].
Qed.
(** an error is passed over ... *)
Lemma keeps_bind_res {A B} (R : A -> list str -> Prop) (Q : B -> list str -> Prop) e1 e2 e m k : keeps R e1 m ->
  (forall a wa, R a wa -> keeps Q (wa ++ e2) (k (Ok a))) -> (forall x, keeps Q e2 (k (Err x))) -> fewer (e1 ++ e2) e -> keeps Q e (bind_res m k).
Proof.
  intros Hm Hk Hx Hf s ws r s' Hs E. unfold bind_res in E. destruct (m s) as [[a|x] s1| |] eqn:E1; try discriminate.
  - exact (keeps_bind_ok R Q e1 e2 e m k Hm Hk Hf s ws a s1 r s' Hs E1 E).
  - destruct (Hm s ws _ s1 Hs E1) as (w1 & Hs1 & H1 & _). destruct (Hx x s1 w1 r s' Hs1 E) as (w2 & Hs2 & H2). exists w2. split; [exact Hs2|].
    destruct r as [b|y].
    + destruct H2 as (wb & Hb & H2). exists wb. split; [exact Hb|fewer].
    + destruct H2 as [H2 Ht]. split; [fewer|]. eapply told_more; [exact Ht|fewer].
Qed.
(** ... or reported *)
Lemma keeps_bind_err {A B} (R : A -> list str -> Prop) (Q : B -> list str -> Prop) e1 e2 e m k : keeps R e1 m ->
  (forall a wa, R a wa -> keeps Q (wa ++ e2) (k (Ok a))) -> (forall x s, k (Err x) s = Ret (Err x) s) -> fewer (e1 ++ e2) e -> keeps Q e (bind_res m k).
Proof.
  intros Hm Hk Hx Hf s ws r s' Hs E. unfold bind_res in E. destruct (m s) as [[a|x] s1| |] eqn:E1; try discriminate.
  - exact (keeps_bind_ok R Q e1 e2 e m k Hm Hk Hf s ws a s1 r s' Hs E1 E).
  - rewrite Hx in E. injection E as <- <-. destruct (Hm s ws _ s1 Hs E1) as (w1 & Hs1 & H1 & Ht). exists w1. split; [exact Hs1|].
    split; [fewer|]. eapply told_more; [exact Ht|fewer].
Qed.
Lemma keeps_bind {A B} (R : A -> list str -> Prop) (Q : B -> list str -> Prop) e1 e2 e m k : keeps R e1 m ->
  (forall a wa, R a wa -> keeps Q (wa ++ e2) (k a)) -> fewer (e1 ++ e2) e -> keeps Q e (bind m k).
Proof. intros Hm Hk Hf. unfold bind. eapply keeps_bind_err; [exact Hm|exact Hk| |exact Hf]. reflexivity. Qed.
Lemma keeps_then {A B} (Q : B -> list str -> Prop) e1 e2 e (m : EM A) k : keeps none e1 m ->
  (forall a, keeps Q e2 (k a)) -> fewer (e1 ++ e2) e -> keeps Q e (bind m k).
Proof. intros Hm Hk Hf. eapply keeps_bind; [exact Hm| |exact Hf]. intros a wa ->. exact (Hk a). Qed.

Lemma keeps_push o ws : spelt_object o ws -> keeps none ws (push o).
Proof. intros Ho s w r s' Hs E. injection E as <- <-. exists (ws ++ w). split; [now constructor|]. exists []. split; [reflexivity|fewer]. Qed.

  Notation E := (sr_emitter debug).
  Notation vis := (visit E).

  Lemma told_nothing what ws : In what [lit "symbol name"; lit "variable declaration"; lit "type definition"] ->
    told (lit "Expected " ++ what ++ lit ", but found " ++ lit "nothing" ++ lit ".") ws.
  Proof. intro H. exists what, (lit "nothing"). split; [exact H|]. split; [reflexivity|left; reflexivity]. Qed.
  Lemma told_object what o w ws : In what [lit "symbol name"; lit "variable declaration"; lit "type definition"] -> spelt_object o w -> fewer w ws ->
    told (lit "Expected " ++ what ++ lit ", but found " ++ debug o ++ lit ".") ws.
  Proof. intros H Ho Hf. exists what, (debug o). split; [exact H|]. split; [reflexivity|right]. eauto. Qed.
  Ltac popped Hs H what :=
    destruct Hs as [|o l w w' Ho Hl]; [injection H as <- <-; exists []; split; [constructor|]; split; [fewer|]; apply (told_nothing what); cbn; tauto|];
    pose proof Ho as Ho'; destruct Ho as [i|f w Hf|t w Ht]; injection H as <- <-; exists w'; (split; [exact Hl|]);
    try (split; [fewer|]; eapply (told_object what); [cbn; tauto|exact Ho'|fewer]).
  Lemma keeps_pop_type : keeps spelt_sr [] (pop_type_definition debug).
  Proof.
    intros [st c] ws r s' Hs H. unfold stk in *. cbn in *. popped Hs H (lit "type definition"). exists w. split; [exact Ht|fewer].
  Qed.
  Lemma keeps_pop_ident : keeps (fun i ws => ws = [unresolved i]) [] (pop_ir_identifier debug).
  Proof.
    intros [st c] ws r s' Hs H. unfold stk in *. cbn in *. popped Hs H (lit "symbol name"). eexists. split; [reflexivity|fewer].
  Qed.
  Lemma keeps_pop_decl : keeps spelt_field [] (pop_variable_declaration debug).
  Proof.
    intros [st c] ws r s' Hs H. unfold stk in *. cbn in *. popped Hs H (lit "variable declaration"). exists w. split; [exact Hf|fewer].
  Qed.
  Lemma keeps_ident e : keeps none e (ident_to_type debug).
  Proof.
    unfold ident_to_type. eapply (keeps_bind _ _ [] []); [apply keeps_pop_ident| |fewer]. intros i wa ->.
    apply (keeps_push _ [unresolved i]). constructor. apply (ssr (unresolved i) [] None [] []); constructor.
  Qed.
  Lemma keeps_map e : fewer [lit "Map"] e -> keeps none e (pops_to_map debug).
  Proof.
    intro He. unfold pops_to_map. eapply (keeps_bind _ _ [] [lit "Map"]); [apply keeps_pop_type| |fewer]. intros v wv Hv.
    eapply (keeps_bind _ _ [] (wv ++ [lit "Map"])); [apply keeps_pop_type| |fewer]. intros x wx Hx.
    eapply keeps_more; [|apply keeps_push; constructor; apply (ssr (lit "Map") [x; v] None); [constructor; [exact Hx|constructor; [exact Hv|constructor]]|constructor]]. fewer.
  Qed.
  Lemma keeps_field n t ws e : spelt_sr t ws -> fewer (n :: ws) e -> keeps spelt_field e (field_of n t).
  Proof.
    intros Ht He. unfold field_of. destruct (type_from t) as [ty|] eqn:Ety; [|apply keeps_panic]. destruct (proj1 converts_all t ws Ht ty Ety) as (w & Hw & Hf).
    apply (keeps_ret _ _ _ (n :: w)); [exists w; split; [exact Hw|reflexivity]|fewer].
  Qed.

  (** ** Nodes *)
  Definition text_of (p : piece) : list str :=
    match p with P t => [token_text t] | Maybe _ => [] | AddressKind s => kind_words s end.
  Definition texts (ps : list piece) : list str := flat_map text_of ps.
  Lemma texts_app a b : texts (a ++ b) = texts a ++ texts b.
  Proof. apply flat_map_app. Qed.
  Lemma texts_cons p l : texts (p :: l) = text_of p ++ texts l. Proof. reflexivity. Qed.
  Definition pieces (n : anynode) : option (list piece) :=
    match n with
    | AByteStr x => Some []
    | ATypeNameIdentifier x => Some (w_tni x)
    | AMetaIdentifier x => Some (w_meta x)
    | ATypeMapKey x => Some (w_key x)
    | ATypeMapValue x => Some (w_value x)
    | ATypeArgument x => Some (w_arg x)
    | AScillaType x => Some (w_type x)
    | ATypeMapEntry x => Some (w_entry x)
    | AAddressTypeField x => Some (w_afield x)
    | AAddressType x => Some (w_addr x)
    | ATypeMapValueArguments x => Some (w_tvarg x)
    | ATypeMapValueAllowingTypeArguments x => Some (w_tva x)
    | _ => None
    end.
    Lemma texts_sep c ls : fewer (flat_map texts ls) (texts (sep c ls)).
    Proof.
      destruct ls as [|x ls]; [fewer|]. cbn [sep flat_map]. rewrite texts_app.
      assert (H : fewer (flat_map texts ls) (texts (flat_map (fun y => P c :: y) ls))); [|fewer].
      induction ls as [|y ls IH]; [fewer|]. cbn [flat_map app]. rewrite texts_cons, texts_app. fewer.
    Qed.
    Lemma flat_map_map {A B C} (f : A -> B) (g : B -> list C) l : flat_map g (map f l) = flat_map (fun x => g (f x)) l.
    Proof. induction l as [|a l IH]; [reflexivity|]. cbn. now rewrite IH. Qed.
    Lemma spelt_field_cons f wf fs ws : spelt_field f wf -> spelt_fields fs ws -> spelt_fields (f :: fs) (wf ++ ws).
    Proof. intros (w & Hw & ->) Hs. destruct f as [n t]. cbn [field_name field_type app] in *. constructor; assumption. Qed.
  (** what the callback pushes before the children are visited *)
  Section Level.
    Context (v : anynode -> EM tr) (Hv : forall n ps, pieces n = Some ps -> keeps none (texts ps) (v n)).

    Lemma keeps_w {A} (inj : A -> anynode) w ps : pieces (inj (node w)) = Some ps -> keeps none (texts ps) (wvisit v inj w).
    Proof. intros Hp s ws r s' Hs. rewrite wvisit_eq. exact (Hv _ _ Hp s ws r s' Hs). Qed.
    Lemma keeps_wm {A} (inj : A -> anynode) w ps : pieces (inj (node w)) = Some ps -> keeps none (texts ps) (visit_wm E v inj w).
    Proof. intros Hp s ws r s' Hs. rewrite visit_wm_eq. exact (Hv _ _ Hp s ws r s' Hs). Qed.

    Lemma spelt_push main sub w w' : spelt_sr main w -> spelt_sr sub w' ->
      exists w'', spelt_sr (push_sub_type main sub) w'' /\ fewer w'' (w ++ w').
    Proof.
      intros Hm Hs. destruct Hm as [n subs addr ws wa Hsubs Ha]. cbn [push_sub_type]. exists (n :: (ws ++ w' ++ []) ++ wa). split; [|fewer].
      constructor; [|exact Ha]. apply spelt_srs_app; [exact Hsubs|]. constructor; [exact Hs|constructor].
    Qed.
    Lemma keeps_collect {A} (inj : A -> anynode) (pf : A -> list piece) (Hp : forall x, pieces (inj x) = Some (pf x)) l :
      forall main wm e, spelt_sr main wm -> fewer (wm ++ texts (flat_map (fun a => pf (node a)) l)) e ->
      keeps spelt_sr e (collect_sub_types debug v inj l main).
    Proof.
      induction l as [|a l IH]; intros main wm e Hm He; cbn [collect_sub_types].
      - apply (keeps_ret _ _ _ wm); [exact Hm|cbn [flat_map texts] in He; fewer].
      - cbn [flat_map] in He. rewrite texts_app in He.
        eapply (keeps_then _ (texts (pf (node a))) (wm ++ texts (flat_map (fun a => pf (node a)) l))); [apply keeps_w; apply Hp| |fewer]. intros _.
        eapply (keeps_bind _ _ [] (wm ++ texts (flat_map (fun a => pf (node a)) l))); [apply keeps_pop_type| |fewer]. intros sub wsub Hsub.
        destruct (spelt_push main sub wm wsub Hm Hsub) as (w'' & Hw & Hf). apply (IH _ w''); [exact Hw|fewer].
    Qed.
    Lemma keeps_generic {A} (inj : A -> anynode) (pf : A -> list piece) (Hp : forall x, pieces (inj x) = Some (pf x)) m l e :
      fewer (texts (w_meta (node m)) ++ texts (flat_map (fun a => pf (node a)) l)) e ->
      keeps none e (generic_type debug v inj m l).
    Proof.
      intro He. unfold generic_type. eapply (keeps_then _ (texts (w_meta (node m))) (texts (flat_map (fun a => pf (node a)) l))); [apply keeps_w; reflexivity| |fewer]. intros _.
      eapply (keeps_then _ [] (texts (flat_map (fun a => pf (node a)) l))); [apply keeps_ident| |fewer]. intros _. destruct l as [|a l]; [apply keeps_done|].
      eapply (keeps_bind _ _ [] (texts (flat_map (fun a => pf (node a)) (a :: l)))); [apply keeps_pop_type| |fewer]. intros main wm Hm.
      eapply (keeps_bind _ _ (wm ++ texts (flat_map (fun a => pf (node a)) (a :: l))) []); [apply (keeps_collect inj pf Hp _ main wm); [exact Hm|fewer]| |fewer].
      intros t wt Ht. eapply keeps_more; [|apply keeps_push; constructor; exact Ht]. fewer.
    Qed.
    Lemma keeps_afields l : forall e, fewer (flat_map (fun f => texts (w_afield (node f))) l) e ->
      keeps spelt_fields e (collect_address_fields debug v l).
    Proof.
      induction l as [|a l IH]; intros e He; cbn [collect_address_fields].
      - apply (keeps_ret _ _ _ []); [constructor|fewer].
      - cbn [flat_map] in He. set (q := flat_map (fun f => texts (w_afield (node f))) l) in *.
        eapply (keeps_then _ (texts (w_afield (node a))) q); [apply keeps_w; reflexivity| |fewer]. intros _.
        eapply (keeps_bind _ _ [] q); [apply keeps_pop_decl| |fewer]. intros f wf Hf.
        eapply (keeps_bind _ _ q wf); [apply IH; fewer| |fewer]. intros fs ws Hs.
        apply (keeps_ret _ _ _ (wf ++ ws)); [apply spelt_field_cons; assumption|fewer].
    Qed.
    Lemma keeps_in {A} (inj : A -> anynode) w ps e : pieces (inj (node w)) = Some ps -> fewer (texts ps) e -> keeps none e (wvisit v inj w).
    Proof. intros Hp Hf. eapply keeps_more; [exact Hf|now apply keeps_w]. Qed.
    Lemma keeps_kid {A} (inj : A -> anynode) w ps e : pieces (inj (node w)) = Some ps -> fewer (texts ps) e -> keeps none e (kid_of (visit_wm E v inj w)).
    Proof.
      intros Hp Hf. unfold kid_of. eapply (keeps_then _ (texts ps) []); [apply keeps_wm, Hp| |fewer]. intros ?. apply keeps_done.
    Qed.

    (** what is left for the children; [None]: they are not visited *)
    Definition kids (n : anynode) : option (list str) :=
      match n with
      | AByteStr _ | ATypeNameIdentifier _ => Some []
      | AMetaIdentifier MetaByteString => None
      | AMetaIdentifier x => Some (texts (w_meta x))
      | ATypeMapEntry x => Some (texts (w_entry x))
      | _ => None
      end.
    Definition entered (n : anynode) (t : tr) (ws : list str) : Prop :=
      match t with SkipChildren => ws = [] | Continue => kids n = Some ws end.
    Lemma keeps_skip n (m : EM unit) e : keeps none e m -> keeps (entered n) e (m ;;; ret SkipChildren).
    Proof. intro Hm. eapply (keeps_then _ e []); [exact Hm| |fewer]. intros _. apply (keeps_ret _ _ _ []); [reflexivity|fewer]. Qed.
    Lemma keeps_skip_tr n (m : EM tr) e : keeps none e m -> keeps (entered n) e (m ;;; ret SkipChildren).
    Proof. intro Hm. eapply (keeps_then _ e []); [exact Hm| |fewer]. intros _. apply (keeps_ret _ _ _ []); [reflexivity|fewer]. Qed.

    Ltac open := repeat (rewrite ?texts_app, ?texts_cons in *; cbn [text_of app token_text] in * ).
    Ltac fw := cbn [unresolved byte_str_display w_bystr w_tni w_meta w_key w_value w_arg w_type w_entry w_afield w_addr w_tvarg w_tva w_id w_custom w_var]; unfold w_custom, w_id, w_hex; open; fewer.
    Lemma keeps_enter n ps : pieces n = Some ps -> keeps (entered n) (texts ps) (sr_emit debug v Enter n).
    Proof.
      destruct n as [n|n|n|n|n|n|n|n|n|n|n|n|n|n|n|n|n|n|n|n|n|n|n|n|n|n|n|n|n|n|n|n|n|n|n|n|n|n|n|n|n|n|n|n|n|n]; intro Hp;
        try discriminate Hp; injection Hp as <-; cbn [sr_emit].
      - apply (keeps_ret _ _ _ []); [reflexivity|fewer].
      - eapply (keeps_then _ (texts (w_tni n)) []); [|intros _; apply (keeps_ret _ _ _ []); [reflexivity|fewer]|fewer].
        destruct n as [b| |s]; [|apply keeps_done|].
        + eapply keeps_more; [|apply keeps_push; constructor]. destruct b; fw.
        + eapply keeps_more; [|apply keeps_push; constructor]. fw.
      - destruct n as [n|a b|h n|]; try (eapply keeps_ret; [reflexivity|fewer]).
        apply keeps_skip. eapply keeps_more; [|apply keeps_push; constructor]. fw.
      - destruct n as [m|m|a|a]; (eapply (keeps_then _ (texts _) []); [eapply keeps_w; reflexivity|intros _; apply keeps_skip, keeps_ident|fw]).
      - apply keeps_skip. destruct n as [m|e|t|a].
        + eapply (keeps_then _ (texts (w_meta (node m))) []); [eapply keeps_w; reflexivity|intros _; apply keeps_ident|fw].
        + eapply (keeps_then _ (texts (w_entry (node e))) [lit "Map"]); [eapply keeps_w; reflexivity|intros _; apply keeps_map; fewer|fw].
        + eapply (keeps_then _ (texts (w_tva (node t))) []); [eapply keeps_w; reflexivity|intros _; apply keeps_done|fw].
        + eapply (keeps_then _ (texts (w_addr (node a))) []); [eapply keeps_w; reflexivity|intros _; apply keeps_done|fw].
      - apply keeps_skip. destruct n as [t|m|x|a|k x].
        + eapply (keeps_then _ (texts (w_type (node t))) []); [eapply keeps_w; reflexivity|intros _; apply keeps_done|fw].
        + eapply (keeps_then _ (texts (w_meta (node m))) []); [eapply keeps_w; reflexivity|intros _; apply keeps_ident|fw].
        + apply keeps_panic.
        + eapply (keeps_then _ (texts (w_addr (node a))) []); [eapply keeps_w; reflexivity|intros _; apply keeps_done|fw].
        + eapply (keeps_then _ (texts (w_key (node k))) (texts (w_value (node x)) ++ [lit "Map"])); [eapply keeps_w; reflexivity|intros _|fw].
          eapply (keeps_then _ (texts (w_value (node x))) [lit "Map"]); [eapply keeps_w; reflexivity|intros _; apply keeps_map; fewer|fewer].
      - apply keeps_skip. destruct n as [m args|k x|a b|t|a|tv t|tv].
        + apply (keeps_generic ATypeArgument w_arg); [reflexivity|fw].
        + eapply (keeps_then _ (texts (w_key (node k))) (texts (w_value (node x)) ++ [lit "Map"])); [eapply keeps_w; reflexivity|intros _|fw].
          eapply (keeps_then _ (texts (w_value (node x))) [lit "Map"]); [eapply keeps_w; reflexivity|intros _; apply keeps_map; fewer|fewer].
        + apply keeps_panic.
        + eapply (keeps_then _ (texts (w_type (node t))) []); [eapply keeps_w; reflexivity|intros _; apply keeps_done|fw].
        + eapply (keeps_then _ (texts (w_addr (node a))) []); [eapply keeps_w; reflexivity|intros _; apply keeps_done|fw].
        + apply keeps_panic.
        + apply keeps_panic.
      - destruct n as [k x]. eapply keeps_ret; [reflexivity|fewer].
      - destruct n as [i t]. apply keeps_skip. destruct (node i) as [s|s|a s] eqn:Ei; [|apply keeps_done|apply keeps_done].
        eapply (keeps_then _ (texts (w_type (node t))) [node s]); [eapply keeps_w; reflexivity|intros _|].
        2: { cbn [w_afield]. rewrite Ei. fw. }
        eapply (keeps_bind _ _ [] [node s]); [apply keeps_pop_type| |fewer]. intros x wx Hx.
        eapply (keeps_bind _ _ (node s :: wx) []); [eapply keeps_field; [exact Hx|fewer]| |fewer]. intros f wf Hf.
        eapply keeps_more; [|apply keeps_push; constructor; exact Hf]. fewer.
      - destruct n as [i tn fs]. apply keeps_skip. set (q := flat_map (fun f => texts (w_afield (node f))) fs). set (r := kind_words (node tn) ++ q).
        assert (Hq : fewer q (texts (sep TComma (map (fun f => w_afield (node f)) fs)))).
        { unfold q. rewrite <- (flat_map_map (fun f => w_afield (node f)) texts). apply texts_sep. }
        eapply (keeps_then _ (texts (w_tni (node i))) r); [eapply keeps_w; reflexivity|intros _|unfold r; fw].
        eapply (keeps_then _ [] r); [apply keeps_ident|intros _|fewer].
        eapply (keeps_bind _ _ [] r); [apply keeps_pop_type| |fewer]. intros main wm Hm.
        eapply (keeps_bind _ _ q (wm ++ kind_words (node tn))); [apply keeps_afields; exact (fun w => le_n _)| |unfold r; fewer]. intros l wl Hl.
        destruct Hm as [n subs addr ws wa Hs Ha].
        eapply keeps_more; [|apply keeps_push; constructor; apply (ssr n subs (Some (mkAddr (node tn) l))); [exact Hs|constructor; exact Hl]]. cbn [a_type_name]. fewer.
      - apply keeps_skip. destruct n as [t|m|k x].
        + eapply (keeps_then _ (texts (w_tva (node t))) []); [eapply keeps_w; reflexivity|intros _; apply keeps_done|fw].
        + eapply (keeps_then _ (texts (w_meta (node m))) []); [eapply keeps_w; reflexivity|intros _; apply keeps_ident|fw].
        + apply keeps_panic.
      - apply keeps_skip. destruct n as [t|m args].
        + eapply (keeps_then _ (texts (w_value (node t))) []); [eapply keeps_w; reflexivity|intros _; apply keeps_done|fw].
        + apply (keeps_generic ATypeMapValueArguments w_tvarg); [reflexivity|fw].
    Qed.

    Lemma keeps_children n ws : kids n = Some ws -> keeps none ws (children E v n).
    Proof.
      destruct n as [n|n|n|n|n|n|n|n|n|n|n|n|n|n|n|n|n|n|n|n|n|n|n|n|n|n|n|n|n|n|n|n|n|n|n|n|n|n|n|n|n|n|n|n|n|n]; intro Hk;
        try discriminate Hk; cbn [children].
      - apply keeps_done.
      - destruct n as [b| |s]; [|apply keeps_done..]. unfold kid_of. eapply (keeps_then _ (texts []) []); [apply Hv; reflexivity|intros ?; apply keeps_done|fewer].
      - destruct n as [n|a b|h n|]; try discriminate Hk; injection Hk as <-.
        + eapply keeps_kid; [reflexivity|fw].
        + eapply (keeps_then _ (texts (w_tni (node a))) (texts (w_tni (node b)))); [eapply keeps_wm; reflexivity|intros _; eapply keeps_kid; [reflexivity|fewer]|fw].
        + eapply keeps_kid; [reflexivity|fw].
      - destruct n as [k x]. injection Hk as <-. eapply (keeps_then _ (texts (w_key (node k))) (texts (w_value (node x)))); [eapply keeps_wm; reflexivity|intros _; eapply keeps_kid; [reflexivity|fewer]|fw].
    Qed.
    Lemma keeps_exit n e : (exists ws, kids n = Some ws) \/ (exists a, n = AAddressType a) -> keeps none e (sr_emit debug v Exit n).
    Proof.
      intros [(ws & H)|(a & ->)].
      - destruct n as [n|n|n|n|n|n|n|n|n|n|n|n|n|n|n|n|n|n|n|n|n|n|n|n|n|n|n|n|n|n|n|n|n|n|n|n|n|n|n|n|n|n|n|n|n|n];
          try discriminate H; destruct n; try discriminate H; cbn [sr_emit]; try apply keeps_done;
          (eapply (keeps_then _ [] []); [apply keeps_done|intros _; apply keeps_done|fewer]).
      - destruct a. cbn [sr_emit]. eapply (keeps_then _ [] []); [apply keeps_done|intros _; apply keeps_done|fewer].
    Qed.
    Lemma keeps_node n ps : pieces n = Some ps -> keeps none (texts ps) (visit_node E v n).
    Proof.
      intro Hp. pose proof (keeps_enter n ps Hp) as He.
      destruct (match n with AAddressType _ => true | _ => false end) eqn:Ea.
      - destruct n as [n|n|n|n|n|n|n|n|n|n|n|n|n|n|n|n|n|n|n|n|n|n|n|n|n|n|n|n|n|n|n|n|n|n|n|n|n|n|n|n|n|n|n|n|n|n]; try discriminate Ea.
        cbn [visit_node]. eapply (keeps_bind_res _ _ (texts ps) []); [exact He| | |fewer].
        + intros [|] wa Ha; [discriminate Ha|]. eapply (keeps_bind (fun k ws => k = Kid Continue /\ ws = [])); [apply (keeps_ret _ [] _ []); [split; reflexivity|fewer]| |instantiate (1 := []); fewer].
          intros k wk [-> ->]. apply keeps_exit. right. eauto.
        + intro x. eapply (keeps_bind (fun k ws => k = Kid Continue /\ ws = [])); [apply (keeps_ret _ [] _ []); [split; reflexivity|fewer]| |instantiate (1 := []); fewer].
          intros k wk [-> ->]. apply keeps_exit. right. eauto.
      - assert (Std : keeps none (texts ps) (standard (fun m => emit E v m n) (children E v n))).
        { unfold standard. eapply (keeps_bind_err _ _ (texts ps) []); [exact He| |reflexivity|fewer].
          - intros [|] wa Ha; cbn [entered] in Ha.
            + eapply (keeps_then _ wa []); [apply keeps_children, Ha| |fewer]. intros [[]|]; [apply keeps_exit; left; eauto|apply keeps_done|apply keeps_done].
            + subst wa. eapply (keeps_bind (fun k ws => k = Kid SkipChildren /\ ws = [])); [apply (keeps_ret _ [] _ []); [split; reflexivity|fewer]| |instantiate (1 := []); fewer].
              intros k wk [-> ->]. apply keeps_done. }
        destruct n; try discriminate Ea; exact Std.
    Qed.
  End Level.

  Theorem keeps_visit f : forall n ps, pieces n = Some ps -> keeps none (texts ps) (vis f n).
  Proof.
    induction f as [|f IH]; intros n ps Hp.
    - intros s ws r s' _ H. discriminate H.
    - intros s ws r s' Hs H. rewrite visit_S in H. exact (keeps_node (vis f) IH n ps Hp s ws r s' Hs H).
  Qed.

  (** ** Declarations *)
  Lemma typed_texts d : texts (w_typed d) = typed_name d :: lit ":" :: texts (w_type (typed_type d)).
  Proof.
    destruct d as [n a]. cbn [w_typed typed_name typed_type]. destruct (node a) as [t]. unfold w_id. cbn [w_annot].
    rewrite texts_app, !texts_cons. reflexivity.
  Qed.
  Lemma keeps_decl d : keeps spelt_field (texts (w_typed d)) (decl debug d).
  Proof.
    rewrite typed_texts. unfold decl, visit_ty.
    eapply (keeps_then _ (texts (w_type (typed_type d))) [typed_name d]); [apply keeps_visit; reflexivity| |fewer]. intros _.
    eapply (keeps_bind _ _ [] [typed_name d]); [apply keeps_pop_type| |fewer]. intros t wt Ht.
    eapply keeps_field; [exact Ht|fewer].
  Qed.
  Definition all_texts (ds : list NodeTypedIdentifier) : list str := flat_map (fun d => texts (w_typed d)) ds.
  Lemma keeps_decls l : keeps spelt_fields (all_texts l) (decls debug l).
  Proof.
    induction l as [|d l IH]; cbn [decls all_texts flat_map].
    - apply (keeps_ret _ _ _ []); [constructor|fewer].
    - eapply (keeps_bind _ _ (texts (w_typed d)) (all_texts l)); [apply keeps_decl| |exact (fun w => le_n _)]. intros f wf Hf.
      eapply (keeps_bind _ _ (all_texts l) wf); [exact IH| |fewer]. intros fs ws Hs.
      apply (keeps_ret _ _ _ (wf ++ ws)); [now apply spelt_field_cons|fewer].
  Qed.

  (** ** The contract *)
  Definition spelt_state (s : sr_state) (ws : list str) : Prop :=
    exists wk wc, stk s wk /\ spelt_contract (es_contract s) wc /\ fewer (wk ++ wc) ws.
  Definition charges (e : list str) (m : EM unit) : Prop := forall s ws r s',
    spelt_state s ws -> m s = Ret r s' -> match r with Ok _ => spelt_state s' (e ++ ws) | Err x => told x (e ++ ws) end.
  Lemma bind_cases {A B} (m : EM A) (k : A -> EM B) s r s' : bind m k s = Ret r s' ->
    (exists a s1, m s = Ret (Ok a) s1 /\ k a s1 = Ret r s') \/ (exists x, m s = Ret (Err x) s' /\ r = Err x).
  Proof.
    unfold bind, bind_res. destruct (m s) as [[a|x] s1| |]; intro H; try discriminate; [left; eauto|right]. injection H as <- <-. eauto.
  Qed.
  Lemma charges_then e1 e2 m k : charges e1 m -> charges e2 k -> charges (e1 ++ e2) (m ;;; k).
  Proof.
    intros H1 H2 s ws r s' Hs H. apply bind_cases in H. destruct H as [(a & s1 & Hm & H)|(x & Hm & ->)].
    - specialize (H2 s1 _ r s' (H1 _ _ _ _ Hs Hm) H). destruct r as [u|x].
      + destruct H2 as (wk & wc & Hk & Hc & Hf). exists wk, wc. split; [exact Hk|]. split; [exact Hc|fewer].
      + eapply told_more; [exact H2|fewer].
    - eapply told_more; [exact (H1 _ _ _ _ Hs Hm)|fewer].
  Qed.
  Lemma charges_each {A} (k : A -> EM unit) (e : A -> list str) l : (forall a, charges (e a) (k a)) -> charges (flat_map e l) (each k l).
  Proof.
    intro Hk. induction l as [|a l IH]; cbn [each flat_map].
    - intros s ws r s' Hs H. injection H as <- <-. exact Hs.
    - apply charges_then; [apply Hk|exact IH].
  Qed.
  (** running something that leaves the contract alone *)
  Lemma run {A} (R : A -> list str -> Prop) e (m : EM A) s ws a s' : keeps R e m -> quiet m -> spelt_state s ws -> m s = Ret (Ok a) s' ->
    exists wk wc wa, stk s' wk /\ spelt_contract (es_contract s') wc /\ R a wa /\ fewer (wa ++ wk ++ wc) (e ++ ws).
  Proof.
    intros Hm Hq (wk & wc & Hk & Hc & Hf) H. destruct (Hm _ _ _ _ Hk H) as (wk' & Hk' & wa & Ha & Hf').
    destruct (Hq _ _ _ H) as [E _]. exists wk', wc, wa. rewrite E. split; [exact Hk'|]. split; [exact Hc|]. split; [exact Ha|fewer].
  Qed.
  Lemma run_err {A} (R : A -> list str -> Prop) e (m : EM A) s ws x s' : keeps R e m -> spelt_state s ws -> m s = Ret (Err x) s' -> told x (e ++ ws).
  Proof.
    intros Hm (wk & wc & Hk & Hc & Hf) H. destruct (Hm _ _ _ _ Hk H) as (wk' & _ & _ & Ht). eapply told_more; [exact Ht|fewer].
  Qed.
  Lemma spelt_fields_snoc l w f wf : spelt_fields l w -> spelt_field f wf -> spelt_fields (l ++ [f]) (w ++ wf).
  Proof.
    induction 1 as [|n t l ws ws' Ht _ IH]; intro Hf; cbn [app].
    - destruct Hf as (x & Hx & ->). destruct f as [n t]. cbn [field_name field_type] in *. rewrite <- (app_nil_r x). constructor; [exact Hx|constructor].
    - rewrite <- app_assoc. constructor; [exact Ht|apply IH, Hf].
  Qed.
  Lemma spelt_transitions_snoc l w n ps wp : spelt_transitions l w -> spelt_fields ps wp ->
    spelt_transitions (l ++ [mkTransition n ps]) (w ++ n :: wp).
  Proof.
    induction 1 as [|n' ps' l ws ws' Ht _ IH]; intro Hf; cbn [app].
    - rewrite <- (app_nil_r wp). constructor; [exact Hf|constructor].
    - rewrite <- app_assoc. constructor; [exact Ht|apply IH, Hf].
  Qed.
  Lemma charges_param d : charges (texts (w_typed d)) (step_param debug d).
  Proof.
    intros s ws u s' Hs H. unfold step_param in H. apply bind_cases in H. destruct H as [(f & s1 & H1 & H)|(x & H1 & ->)]; [|exact (run_err _ _ _ _ _ _ _ (keeps_decl d) Hs H1)].
    destruct (run _ _ _ _ _ _ _ (keeps_decl d) (quiet_decl debug d) Hs H1) as (wk & wc & wf & Hk & Hc & Hf & Hle).
    injection H as <- <-. destruct s1 as [st c]. unfold spelt_state, stk in *. cbn [es_stack es_contract] in *.
    destruct Hc as [n ps fs ts wp wfs wt H1' H2 H3]. exists wk, (n :: (wp ++ wf) ++ wfs ++ wt). split; [exact Hk|]. split; [|fewer].
    constructor; [now apply spelt_fields_snoc|exact H2|exact H3].
  Qed.
  Lemma charges_again d : charges (texts (w_typed d)) (step_again debug d).
  Proof.
    intros s ws u s' Hs H. unfold step_again in H. apply bind_cases in H. destruct H as [(f & s1 & H1 & H)|(x & H1 & ->)]; [|exact (run_err _ _ _ _ _ _ _ (keeps_decl d) Hs H1)].
    destruct (run _ _ _ _ _ _ _ (keeps_decl d) (quiet_decl debug d) Hs H1) as (wk & wc & wf & Hk & Hc & Hf & Hle).
    injection H as <- <-. destruct s1 as [st c]. unfold spelt_state, stk in *. cbn [es_stack es_contract] in *.
    exists (wf ++ wk), wc. split; [constructor; [constructor; exact Hf|exact Hk]|]. split; [exact Hc|fewer].
  Qed.
  Lemma charges_field d : charges (texts (w_typed d)) (step_field debug d).
  Proof.
    intros s ws u s' Hs H. unfold step_field in H. apply bind_cases in H. destruct H as [(f & s1 & H1 & H)|(x & H1 & ->)]; [|exact (run_err _ _ _ _ _ _ _ (keeps_decl d) Hs H1)].
    destruct (run _ _ _ _ _ _ _ (keeps_decl d) (quiet_decl debug d) Hs H1) as (wk & wc & wf & Hk & Hc & Hf & Hle).
    injection H as <- <-. destruct s1 as [st c]. unfold spelt_state, stk in *. cbn [es_stack es_contract] in *.
    destruct Hc as [n ps fs ts wp wfs wt H1' H2 H3]. exists wk, (n :: wp ++ (wfs ++ wf) ++ wt). split; [exact Hk|]. split; [|fewer].
    constructor; [exact H1'|now apply spelt_fields_snoc|exact H3].
  Qed.
  Lemma charges_transition t : charges (fst t :: all_texts (snd t)) (step_transition debug t).
  Proof.
    intros s ws u s' Hs H. unfold step_transition in H. apply bind_cases in H. destruct H as [(u0 & s0 & H0 & H)|(x & H0 & ->)]; [|discriminate H0].
    assert (Hs0 : spelt_state s0 (fst t :: ws)).
    { injection H0 as _ <-. destruct s as [st c]. destruct Hs as (wk & wc & Hk & Hc & Hf). unfold spelt_state, stk in *. cbn [es_stack es_contract] in *.
      exists ([fst t] ++ wk), wc. split; [constructor; [apply (so_id (mkId (fst t) KComponentName))|exact Hk]|]. split; [exact Hc|fewer]. }
    clear H0 Hs. apply bind_cases in H.
    destruct H as [(fs & s1 & H1 & H)|(x & H1 & ->)]; [|eapply told_more; [exact (run_err _ _ _ _ _ _ _ (keeps_decls (snd t)) Hs0 H1)|fewer]].
    destruct (run _ _ _ _ _ _ _ (keeps_decls (snd t)) (quiet_decls debug (snd t)) Hs0 H1) as (wk & wc & wf & Hk & Hc & Hf & Hle).
    apply bind_cases in H. destruct H as [(i & s2 & H2 & H)|(x & H2 & ->)].
    2: { destruct (keeps_pop_ident _ _ _ _ Hk H2) as (wk' & _ & _ & Ht). eapply told_more; [exact Ht|fewer]. }
    destruct (keeps_pop_ident _ _ _ _ Hk H2) as (wk' & Hk' & wi & -> & Hle').
    destruct (quiet_pop_ident debug _ _ _ H2) as [Ec _].
    destruct (kind i); try discriminate H. injection H as <- <-. destruct s2 as [st c]. unfold spelt_state, stk in *. cbn [es_stack es_contract] in *.
    rewrite <- Ec in Hc. destruct Hc as [n ps fs' ts wp wfs wt H1' H2' H3]. exists wk', (n :: wp ++ wfs ++ (wt ++ unresolved i :: wf)).
    split; [exact Hk'|]. split; [|fewer].
    constructor; [exact H1'|exact H2'|now apply spelt_transitions_snoc].
  Qed.

  Lemma flat_fewer {A} (f g : A -> list str) l : (forall a, fewer (f a) (g a)) -> fewer (flat_map f l) (flat_map g l).
  Proof. intro H. induction l as [|a l IH]; [fewer|]. cbn [flat_map]. specialize (H a). fewer. Qed.
  Lemma texts_flat {A} (f : A -> list piece) l : texts (flat_map f l) = flat_map (fun a => texts (f a)) l.
  Proof. induction l as [|a l IH]; [reflexivity|]. cbn [flat_map]. now rewrite texts_app, IH. Qed.
  Lemma params_texts ps : fewer (all_texts (param_decls ps)) (texts (w_params ps)).
  Proof.
    destruct ps as [l]. cbn [param_decls]. unfold all_texts. rewrite flat_map_map.
    assert (H : fewer (flat_map texts (map (fun p => w_pair (node p)) l)) (texts (w_params (mkComponentParameters l)))).
    { destruct l as [|p l]; [fewer|]. cbn [w_params]. rewrite !texts_cons, texts_app. pose proof (texts_sep TComma (map (fun p => w_pair (node p)) (p :: l))) as H. fewer. }
    rewrite flat_map_map in H. assert (E : forall q, fewer (flat_map (fun x => texts (w_typed match node x with mkParameterPair i => node i end)) q)
      (flat_map (fun x => texts (w_pair (node x))) q)).
    { intro q. apply flat_fewer. intro a. destruct (node a). exact (fun w => le_n _). }
    specialize (E l). fewer.
  Qed.
  Lemma display_texts n : texts (w_tni n) = [type_name_identifier_display n].
  Proof. destruct n as [[b|b]| |s]; reflexivity. Qed.
  Lemma cid_texts n : texts (w_cid n) = [component_name n].
  Proof. destruct n as [n|s]; [apply display_texts|reflexivity]. Qed.

  Lemma first_words c : spelt_state (first_state c) [declared_name c; declared_name c].
  Proof.
    unfold first_state. destruct c as [cn ps w fs cs]. cbn [contract_name_node declared_name].
    assert (Hc : spelt_contract (mkContract (type_name_identifier_display (node cn)) [] [] []) [type_name_identifier_display (node cn)])
      by (apply (sc_contract _ [] [] [] [] [] []); constructor).
    unfold spelt_state, stk. cbn [es_stack es_contract].
    destruct (node cn) as [b| |s0]; cbn [name_stack].
    - exists ([type_name_identifier_display (ByteStringType b)] ++ []), [type_name_identifier_display (ByteStringType b)].
      split; [constructor; [apply (so_id (mkId _ KUnknown))|constructor]|]. split; [exact Hc|fewer].
    - exists [], [type_name_identifier_display EventType]. split; [constructor|]. split; [exact Hc|fewer].
    - exists ([type_name_identifier_display (TypeOrEnumLikeIdentifier s0)] ++ []), [type_name_identifier_display (TypeOrEnumLikeIdentifier s0)].
      split; [constructor; [apply (so_id (mkId _ KUnknown))|constructor]|]. split; [exact Hc|fewer].
  Qed.
  (** what a contract can be charged for *)
  Definition contract_texts (c : NodeContractDefinition) : list str :=
    texts (w_contract c) ++ texts (w_tni (contract_name_node c)) ++ texts (match c with mkContractDefinition _ ps _ _ _ => w_params (node ps) end).
  Lemma contract_charges c r s : steps debug c (first_state c) = Ret r s ->
    match r with Ok _ => exists wc, spelt_contract (es_contract s) wc /\ fewer wc (contract_texts c) | Err x => told x (contract_texts c) end.
  Proof.
    intro H. assert (G : match r with Ok _ => spelt_state s (contract_texts c) | Err x => told x (contract_texts c) end).
    { pose proof (charges_then _ _ _ _ (charges_each _ _ (contract_param_decls c) charges_param) (charges_then _ _ _ _ (charges_each _ _ (contract_param_decls c) charges_again)
        (charges_then _ _ _ _ (charges_each _ _ (field_decls c) charges_field) (charges_each _ _ (transition_decls c) charges_transition)))
        _ _ _ _ (first_words c) H) as G. cbv beta in G.
      set (all := _ ++ [declared_name c; declared_name c]) in G. assert (Hf : fewer all (contract_texts c)); subst all.
      2: { destruct r as [u|x]; [|exact (told_more _ _ _ G Hf)]. destruct G as (wk & wc & Hk & Hc & Hle). exists wk, wc. split; [exact Hk|]. split; [exact Hc|fewer]. }
      clear. unfold contract_texts. destruct c as [cn ps w fs cs].
      cbn [declared_name contract_name_node contract_param_decls field_decls transition_decls w_contract].
    rewrite texts_cons, !texts_app, !display_texts, !texts_flat.
    pose proof (params_texts (node ps)) as Hp. unfold all_texts in Hp.
    assert (Hfs : fewer (flat_map (fun d => texts (w_typed d)) (map (fun f => match node f with mkContractField i _ => node i end) fs))
      (flat_map (fun a => texts (w_cfield (node a))) fs)).
    { rewrite flat_map_map. apply flat_fewer. intro a. destruct (node a) as [i x]. cbn [w_cfield]. rewrite texts_cons, texts_app. fewer. }
    assert (Hcs : fewer (flat_map (fun a => fst a :: all_texts (snd a)) (flat_map
      (fun d => match node d with TransitionComponent t => match node t with mkTransitionDefinition n ps _ => [(component_name (node n), param_decls (node ps))] end
                | ProcedureComponent _ => [] end) cs)) (flat_map (fun a => texts (w_comp (node a))) cs)).
    { clear. induction cs as [|d cs IH]; [fewer|]. cbn [flat_map]. rewrite flat_map_app.
      destruct (node d) as [t|p]; [|cbn [flat_map]; fewer]. cbn [w_comp]. destruct (node t) as [tn tps tb]. cbn [flat_map fst snd w_trans].
      rewrite texts_cons, !texts_app, cid_texts. pose proof (params_texts (node tps)). fewer. }
    intro x. specialize (Hp x). specialize (Hfs x). specialize (Hcs x).
    repeat rewrite ?occ_app, ?occ_cons, ?occ_nil in *. lia. }
    destruct r as [u|x]; [|exact G]. destruct G as (wk & wc & _ & Hc & Hf). exists wc. split; [exact Hc|fewer].
  Qed.
  Theorem contract_words c s u : steps debug c (first_state c) = Ret (Ok u) s ->
    exists wc, spelt_contract (es_contract s) wc /\
      fewer wc (texts (w_contract c) ++ texts (w_tni (contract_name_node c)) ++ texts (match c with mkContractDefinition _ ps _ _ _ => w_params (node ps) end)).
  Proof. exact (contract_charges c (Ok u) s). Qed.

  (** ** From the pieces to the tokens *)
  Lemma kind_texts s k : kind_tokens s k -> fewer (kind_words s) (map token_text k).
  Proof.
    intros [-> | -> | -> |]; [exact (fun w => le_n _)..|]. cbn [map token_text]. destruct s as [|c s]; cbn [kind_words]; fewer.
  Qed.
  Lemma matches_texts ps toks : matches ps toks -> fewer (texts ps) (map token_text toks).
  Proof.
    induction 1 as [|t ps toks _ IH|l ps toks _ IH|l ps toks _ IH|s k ps toks Hk _ IH]; rewrite ?texts_cons, ?map_app; cbn [text_of map app].
    - fewer.
    - fewer.
    - fewer.
    - fewer.
    - apply kind_texts in Hk. fewer.
  Qed.
End Emit.
