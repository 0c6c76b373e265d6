(** Parse trees of the normalised grammar (Cfg.v) and derivations of the
    grammar as written (Grammar.v) are the same thing; hence the theorems about
    [parse]. *)
From Verif Require Import Chars Lexer Ast Grammar Cfg Tables Parser LrCheck LrFacts LrProofs.
Local Open Scope nat_scope.

(** ** Unfolding [sem] *)
Lemma sem_node b' j ts b :
  sem (Node b' j ts) b =
  if bsym_eqb b' b then
    match nth_error (fprods b) j with
    | None => None
    | Some f =>
        match sems ts (f_rhs f) with
        | Some vs => Some (f_act f (tree_start (Node b' j ts)) (tree_end (Node b' j ts)) vs)
        | None => None
        end
    end
  else None.
Proof. reflexivity. Qed.

Lemma tree_end_node b j ts :
  tree_end (Node b j ts) =
  (fix last (ts : list tree) : source_position :=
     match ts with
     | [] => start_position
     | t0 :: r => match r with [] => tree_end t0 | _ => last r end
     end) ts.
Proof. reflexivity. Qed.

(** ** Spans *)
Lemma last_end_app l1 l2 : l2 <> [] -> last_end (l1 ++ l2) = last_end l2.
Proof.
  intro H. induction l1 as [|i l1 IH]; [reflexivity|].
  cbn [app last_end]. destruct (l1 ++ l2) eqn:E; [|exact IH].
  destruct l1; [cbn in E; congruence|discriminate].
Qed.

Lemma first_start_app l1 l2 : l1 <> [] -> first_start (l1 ++ l2) = first_start l1.
Proof. destruct l1; [congruence|reflexivity]. Qed.

Lemma tree_start_yield t : forall x, valid x t -> tree_start t = first_start (yield t).
Proof.
  induction t as [i|b j ts IH] using tree_rect'; intros x Hv; inversion Hv as [|? ? rhs ? Hr Hf]; subst.
  - reflexivity.
  - destruct Hf as [|y t rhs ts Hy Hf]; [reflexivity|].
    inversion IH as [|? ? IHt _]; subst. cbn [tree_start yield flat_map].
    rewrite first_start_app by (eapply yield_nonempty, Hy). eapply IHt, Hy.
Qed.

Lemma tree_end_yield t : forall x, valid x t -> tree_end t = last_end (yield t).
Proof.
  induction t as [i|b j ts IH] using tree_rect'; intros x Hv; inversion Hv as [|? ? rhs ? Hr Hf]; subst.
  - reflexivity.
  - rewrite tree_end_node. cbn [yield]. clear Hr Hv. revert IH.
    induction Hf as [|y t rhs ts Hy Hf IHf]; intro IH; [reflexivity|].
    inversion IH as [|? ? IHt IHts]; subst. cbn [flat_map].
    destruct ts as [|t' ts].
    + cbn [flat_map]. rewrite app_nil_r. eapply IHt, Hy.
    + rewrite last_end_app.
      * apply IHf, IHts.
      * inversion Hf as [|? ? ? ? Hy' _]; subst. cbn [flat_map].
        pose proof (yield_nonempty _ _ Hy'). destruct (yield t'); [congruence|discriminate].
Qed.

(** ** Trees to derivations *)
Definition bder (b : bsym) : list item -> bsym_type b -> Prop :=
  match b with
  | BT k => fun toks v => toks = [v] /\ kind_of (item_token v) = Some k
  | BN A => fun toks v => der_atom (Nt A) toks v
  | BP a => fun toks v => der_list a toks v /\ v <> []
  | BS A => fun toks v => der_atom (Nt A) toks v
  end.
Fixpoint bders (l : list bsym) : list item -> btuple l -> Prop :=
  match l with
  | [] => fun toks _ => toks = []
  | b :: r => fun toks v => exists t1 t2, toks = t1 ++ t2 /\ bder b t1 (fst v) /\ bders r t2 (snd v)
  end.

Lemma bder_atom a toks v : bder (bsym_of a) toks v -> der_atom a toks (to_atom a v).
Proof.
  destruct a as [k|A]; cbn.
  - intros [-> H]. constructor. exact H.
  - auto.
Qed.

Lemma expand_sound l : forall vr, In vr (expand l) -> forall toks x,
  bders (v_rhs vr) toks x -> der_rhs l toks (v_conv vr x).
Proof.
  induction l as [|s l IH]; intros vr Hin toks x Hb.
  - cbn in Hin. destruct Hin as [<-|[]]. cbn in *. subst. constructor.
  - assert (Htake : forall b (f : bsym_type b -> sym_type s) vr0, In vr0 (expand l) ->
      vr = @v_take s l b f vr0 -> (forall t v, bder b t v -> der_sym s t (f v)) ->
      der_rhs (s :: l) toks (v_conv vr x)).
    { intros b f vr0 Hin0 -> Hf. cbn in x, Hb |- *. destruct Hb as (t1 & t2 & -> & H1 & H2).
      constructor; auto. }
    assert (Hskip : forall (d : sym_type s) vr0, In vr0 (expand l) ->
      vr = @v_skip s l d vr0 -> der_sym s [] d -> der_rhs (s :: l) toks (v_conv vr x)).
    { intros d vr0 Hin0 -> Hd. cbn in x, Hb |- *.
      change toks with ([] ++ toks). constructor; auto. }
    destruct s as [a|a|a|a]; cbn [expand] in Hin.
    + apply in_map_iff in Hin. destruct Hin as (vr0 & E & Hin0).
      eapply Htake; [exact Hin0|symmetry; exact E|]. intros. constructor. apply bder_atom; assumption.
    + apply in_app_iff in Hin. destruct Hin as [Hin|Hin]; apply in_map_iff in Hin; destruct Hin as (vr0 & E & Hin0).
      * eapply Hskip; [exact Hin0|symmetry; exact E|]. constructor.
      * eapply Htake; [exact Hin0|symmetry; exact E|]. intros. constructor. apply bder_atom; assumption.
    + apply in_app_iff in Hin. destruct Hin as [Hin|Hin]; apply in_map_iff in Hin; destruct Hin as (vr0 & E & Hin0).
      * eapply Hskip; [exact Hin0|symmetry; exact E|]. constructor. constructor.
      * eapply Htake; [exact Hin0|symmetry; exact E|]. intros t v [Ht _]. constructor. exact Ht.
    + apply in_map_iff in Hin. destruct Hin as (vr0 & E & Hin0).
      eapply Htake; [exact Hin0|symmetry; exact E|]. intros t v [Ht Hv]. constructor; assumption.
Qed.

Lemma der_list_snoc a toks vs : der_list a toks vs -> forall toks' v, der_atom a toks' v ->
  der_list a (toks ++ toks') (vs ++ [v]).
Proof.
  induction 1 as [a|a t1 v1 t2 vs H1 H2 IH]; intros toks' v Hv.
  - cbn [app]. rewrite <- (app_nil_r toks'). constructor; [exact Hv|constructor].
  - rewrite <- app_assoc. cbn [app]. constructor; auto.
Qed.

Lemma tree_sound t : forall b, valid b t -> exists v, sem t b = Some v /\ bder b (yield t) v.
Proof.
  induction t as [i|b j ts IH] using tree_rect'; intros b0 Hv; inversion Hv as [k ? Hk|? ? rhs ? Hr Hf]; subst.
  - exists i. cbn. unfold kind_is. rewrite Hk. rewrite (proj2 (tk_eqb_eq k k) eq_refl). auto.
  - pose proof (tree_start_yield _ _ Hv) as Hs. pose proof (tree_end_yield _ _ Hv) as He.
    rewrite sem_node, bsym_eqb_refl. unfold rhs_of in Hr.
    destruct (nth_error (fprods b) j) as [f|] eqn:Ef; [|discriminate]. cbn in Hr. injection Hr as <-.
    assert (exists vs, sems ts (f_rhs f) = Some vs /\ bders (f_rhs f) (flat_map yield ts) vs) as (vs & Hvs & Hd).
    { clear Hv Hs He Ef. revert IH. induction Hf as [|y t l ts Hy Hf IHf]; intro IH.
      - exists tt. cbn. auto.
      - inversion IH as [|? ? IHt IHts]; subst. destruct (IHt _ Hy) as (v & Ev & Dv).
        destruct (IHf IHts) as (vs & Evs & Dvs). exists (v, vs). cbn [sems]. rewrite Ev, Evs.
        split; [reflexivity|]. cbn. exists (yield t), (flat_map yield ts). auto. }
    rewrite Hvs. eexists. split; [reflexivity|]. rewrite Hs, He. cbn [yield].
    set (toks := flat_map yield ts) in *. clearbody toks. clear Hv Hs He Hvs Hf IH.
    apply nth_error_In in Ef. destruct b as [k|A|a|A]; cbn [fprods] in Ef.
    + destruct Ef.
    + unfold flat_prods in Ef. apply in_flat_map in Ef. destruct Ef as (p & Hp & Ef).
      apply in_map_iff in Ef. destruct Ef as (vr & <- & Hvr). cbn.
      constructor; [exact Hp|]. apply expand_sound; assumption.
    + destruct Ef as [<-|[<-|[]]]; cbn in vs, Hd |- *.
      * destruct vs as [v []]. cbn in Hd. destruct Hd as (t1 & t2 & -> & Hd & ->).
        split; [|discriminate]. constructor; [apply bder_atom, Hd|constructor].
      * destruct vs as [l [v []]]. cbn in Hd.
        destruct Hd as (t1 & t2 & -> & [Hl Hne] & t3 & t4 & -> & Hd & ->).
        split; [|destruct l; discriminate]. rewrite app_nil_r. apply der_list_snoc; [exact Hl|].
        apply bder_atom, Hd.
    + destruct Ef as [<-|[]]. cbn in vs, Hd |- *. destruct vs as [v []]. cbn in Hd.
      destruct Hd as (t1 & t2 & -> & Hd & ->). rewrite app_nil_r. exact Hd.
Qed.

(** ** Derivations to trees *)
Scheme der_atom_mind := Induction for der_atom Sort Prop
  with der_sym_mind := Induction for der_sym Sort Prop
  with der_list_mind := Induction for der_list Sort Prop
  with der_rhs_mind := Induction for der_rhs Sort Prop.
Combined Scheme der_mutind from der_atom_mind, der_sym_mind, der_list_mind, der_rhs_mind.

Definition tree_for (b : bsym) (t : tree) (v : bsym_type b) : Prop := valid b t /\ sem t b = Some v.
Definition has_tree (b : bsym) (toks : list item) (v : bsym_type b) : Prop :=
  exists t, tree_for b t v /\ yield t = toks.

(** the ways a symbol of a production can be realised by a variant *)
Definition real_sym (s : sym) : list item -> sym_type s -> Prop :=
  match s with
  | One a => fun toks v => has_tree (bsym_of a) toks (of_atom a v)
  | Opt a => fun toks v => match v with
                           | None => toks = []
                           | Some x => has_tree (bsym_of a) toks (of_atom a x)
                           end
  | Star a => fun toks v => (toks = [] /\ v = []) \/ has_tree (BP a) toks v
  | Plus a => fun toks v => has_tree (BP a) toks v
  end.

Lemma to_of_atom a v : to_atom a (of_atom a v) = v.
Proof. destruct a; reflexivity. Qed.

Lemma node_tree b j f ts vs :
  nth_error (fprods b) j = Some f -> Forall2 valid (f_rhs f) ts -> sems ts (f_rhs f) = Some vs ->
  tree_for b (Node b j ts)
    (f_act f (first_start (flat_map yield ts)) (last_end (flat_map yield ts)) vs).
Proof.
  intros Hn Hf Hs. assert (Hv : valid b (Node b j ts)).
  { econstructor; [|exact Hf]. unfold rhs_of. rewrite Hn. reflexivity. }
  split; [exact Hv|]. rewrite sem_node, bsym_eqb_refl, Hn, Hs.
  rewrite (tree_start_yield _ _ Hv), (tree_end_yield _ _ Hv). reflexivity.
Qed.

Definition plus_one a := mkfprod (BP a) [bsym_of a] (fun _ _ '(x, _) => [to_atom a x]).
Definition plus_more a := mkfprod (BP a) [BP a; bsym_of a] (fun _ _ '(l, (x, _)) => l ++ [to_atom a x]).

Lemma plus_tree a ts vs : ts <> [] ->
  Forall2 (fun t v => tree_for (bsym_of a) t (of_atom a v)) ts vs ->
  exists t, tree_for (BP a) t vs /\ yield t = flat_map yield ts.
Proof.
  intros Hne H. revert vs H. induction ts as [|t ts IH] using rev_ind; intros vs H; [congruence|].
  clear Hne. apply Forall2_app_inv_l in H. destruct H as (vs1 & vs2 & H1 & H2 & ->).
  inversion H2 as [|? v ? ? [Hv Hs] H3]; subst. inversion H3; subst.
  destruct ts as [|t0 ts0].
  - inversion H1; subst. exists (Node (BP a) 0 [t]). split; [|reflexivity].
    destruct (node_tree (BP a) 0 (plus_one a) [t] (of_atom a v, tt) eq_refl) as [Hva Hse].
    + repeat constructor. exact Hv.
    + cbn [sems f_rhs plus_one plus_more]. rewrite Hs. reflexivity.
    + split; [exact Hva|]. rewrite Hse. cbn. rewrite to_of_atom. reflexivity.
  - destruct (IH ltac:(discriminate) _ H1) as (tp & [Hvp Hsp] & Hy).
    exists (Node (BP a) 1 [tp; t]). split.
    + destruct (node_tree (BP a) 1 (plus_more a) [tp; t] (vs1, (of_atom a v, tt)) eq_refl) as [Hva Hse].
      * repeat constructor; assumption.
      * cbn [sems f_rhs plus_one plus_more]. rewrite Hsp, Hs. reflexivity.
      * split; [exact Hva|]. rewrite Hse. cbn. rewrite to_of_atom. reflexivity.
    + cbn [yield flat_map]. rewrite Hy, flat_map_app. cbn [flat_map]. reflexivity.
Qed.

Definition real_rhs (l : list sym) (toks : list item) (vs : tuple l) : Prop :=
  exists vr ts x, In vr (expand l) /\ Forall2 valid (v_rhs vr) ts /\ sems ts (v_rhs vr) = Some x
    /\ v_conv vr x = vs /\ flat_map yield ts = toks.

Lemma real_take s l b (f : bsym_type b -> sym_type s) toks1 toks2 v vs :
  (forall vr, In vr (expand l) -> In (@v_take s l b f vr) (expand (s :: l))) ->
  has_tree b toks1 v -> real_rhs l toks2 vs ->
  real_rhs (s :: l) (toks1 ++ toks2) (f v, vs).
Proof.
  intros Hin (t & [Hv Hs] & <-) (vr & ts & x & Hvr & Hf & Hss & <- & <-).
  exists (@v_take s l b f vr), (t :: ts), (v, x). split; [auto|]. split; [constructor; assumption|].
  split; [cbn [v_take v_rhs sems]; rewrite Hs, Hss; reflexivity|]. split; reflexivity.
Qed.

Lemma real_skip s l (d : sym_type s) toks2 vs :
  (forall vr, In vr (expand l) -> In (@v_skip s l d vr) (expand (s :: l))) ->
  real_rhs l toks2 vs -> real_rhs (s :: l) toks2 (d, vs).
Proof.
  intros Hin (vr & ts & x & Hvr & Hf & Hss & <- & <-).
  exists (@v_skip s l d vr), ts, x. split; [auto|]. repeat split; assumption.
Qed.

Lemma real_cons s l toks1 toks2 v vs :
  real_sym s toks1 v -> real_rhs l toks2 vs -> real_rhs (s :: l) (toks1 ++ toks2) (v, vs).
Proof.
  destruct s as [a|a|a|a]; cbn [real_sym]; intros H1 H2.
  - rewrite <- (to_of_atom a v). apply real_take; [|exact H1|exact H2].
    intros vr H. cbn [expand]. apply in_map, H.
  - destruct v as [v|].
    + rewrite <- (to_of_atom a v).
      apply (real_take (Opt a) l (bsym_of a) (fun v => Some (to_atom a v))); [|exact H1|exact H2].
      intros vr H. cbn [expand]. apply in_app_iff. right. apply in_map, H.
    + subst toks1. cbn [app]. apply real_skip; [|exact H2].
      intros vr H. cbn [expand]. apply in_app_iff. left. apply in_map, H.
  - destruct H1 as [[-> ->]|H1].
    + cbn [app]. apply real_skip; [|exact H2].
      intros vr H. cbn [expand]. apply in_app_iff. left. apply in_map, H.
    + apply (real_take (Star a) l (BP a) (fun v => v)); [|exact H1|exact H2].
      intros vr H. cbn [expand]. apply in_app_iff. right. apply in_map, H.
  - apply (real_take (Plus a) l (BP a) (fun v => v)); [|exact H1|exact H2].
    intros vr H. cbn [expand]. apply in_map, H.
Qed.

Lemma der_trees :
  (forall a toks v, der_atom a toks v -> has_tree (bsym_of a) toks (of_atom a v)) /\
  (forall s toks v, der_sym s toks v -> real_sym s toks v) /\
  (forall a toks vs, der_list a toks vs ->
     exists ts, Forall2 (fun t v => tree_for (bsym_of a) t (of_atom a v)) ts vs /\ flat_map yield ts = toks) /\
  (forall l toks vs, der_rhs l toks vs -> real_rhs l toks vs).
Proof.
  apply (der_mutind
    (fun a toks v _ => has_tree (bsym_of a) toks (of_atom a v))
    (fun s toks v _ => real_sym s toks v)
    (fun a toks vs _ => exists ts,
        Forall2 (fun t v => tree_for (bsym_of a) t (of_atom a v)) ts vs /\ flat_map yield ts = toks)
    (fun l toks vs _ => real_rhs l toks vs)).
  - intros k i Hk. exists (Leaf i). split; [|reflexivity]. split; [constructor; exact Hk|].
    cbn. unfold kind_is. rewrite Hk, (proj2 (tk_eqb_eq k k) eq_refl). reflexivity.
  - intros A p toks vs Hin _ (vr & ts & x & Hvr & Hf & Hss & <- & <-). cbn [bsym_of of_atom].
    assert (Hfin : In (mkfprod (BN A) (v_rhs vr) (fun s e x => p_act p s e (v_conv vr x))) (fprods (BN A))).
    { cbn [fprods]. unfold flat_prods. apply in_flat_map. exists p. split; [exact Hin|].
      apply in_map_iff. exists vr. auto. }
    apply In_nth_error in Hfin. destruct Hfin as (j & Hj).
    exists (Node (BN A) j ts). split; [|reflexivity].
    exact (node_tree (BN A) j (mkfprod (BN A) (v_rhs vr) (fun s e x => p_act p s e (v_conv vr x))) ts x Hj Hf Hss).
  - intros a toks v _ IH. exact IH.
  - intros a. reflexivity.
  - intros a toks v _ IH. exact IH.
  - intros a toks vs _ (ts & Hts & <-). cbn [real_sym]. destruct Hts as [|t v ts vs Ht Hts].
    + left. auto.
    + right. destruct (plus_tree a (t :: ts) (v :: vs)) as (t' & H & Hy).
      * discriminate.
      * constructor; assumption.
      * exists t'. auto.
  - intros a toks vs _ (ts & Hts & <-) Hne. cbn [real_sym].
    destruct (plus_tree a ts vs) as (t' & H & Hy); [|exact Hts|].
    + destruct Hts; congruence.
    + exists t'. auto.
  - intros a. exists []. split; [constructor|reflexivity].
  - intros a toks1 v toks2 vs _ (t & Ht & <-) _ (ts & Hts & <-).
    exists (t :: ts). split; [constructor; assumption|reflexivity].
  - exists (@mkvariant [] [] (fun _ => tt)), [], tt. split; [left; reflexivity|].
    repeat split; constructor.
  - intros s l toks1 v toks2 vs _ H1 _ H2. apply real_cons; assumption.
Qed.

Lemma derives_tree A toks v : derives A toks v -> exists t, valid (BN A) t /\ sem t (BN A) = Some v /\ yield t = toks.
Proof.
  intro H. destruct (proj1 der_trees (Nt A) toks v H) as (t & [Hv Hs] & Hy). eauto.
Qed.

Lemma tree_derives A t : valid (BN A) t -> exists v, sem t (BN A) = Some v /\ derives A (yield t) v.
Proof. apply (tree_sound t (BN A)). Qed.

(** ** The parser *)
Theorem parse_sound A inp e v : parse A inp e = POk v -> derives A inp v /\ e = LEof.
Proof.
  unfold parse. pose proof (lr_run_spec0 A e inp) as H.
  destruct (lr_run (lr_fuel inp) A e [] inp) as [t| | | | |]; try discriminate.
  inversion H as [t' Hv Hy He| | |]; subst. destruct (tree_derives A t Hv) as (v' & Hs & Hd).
  rewrite Hs. intros [= <-]. auto.
Qed.

Theorem parse_complete A inp v : derives A inp v -> parse A inp LEof = POk v.
Proof.
  intro H. destruct (derives_tree A inp v H) as (t & Hv & Hs & <-).
  unfold parse. rewrite (lr_complete A t Hv), Hs. reflexivity.
Qed.

Theorem parse_iff A inp e v : parse A inp e = POk v <-> derives A inp v /\ e = LEof.
Proof. split; [apply parse_sound|]. intros [H ->]. apply parse_complete, H. Qed.

Theorem derives_unique A toks v1 v2 : derives A toks v1 -> derives A toks v2 -> v1 = v2.
Proof.
  intros H1 H2. apply parse_complete in H1, H2. congruence.
Qed.

Theorem parse_not_internal A inp e : parse A inp e <> PInternal.
Proof.
  unfold parse. pose proof (lr_run_spec0 A e inp) as H.
  destruct (lr_run (lr_fuel inp) A e [] inp) as [t| | | | |]; try discriminate; inversion H; subst.
  destruct (tree_derives A t) as (v' & -> & _); [assumption|discriminate].
Qed.

(** ** Exactly which result on which input *)

(** [u] can be completed to a phrase of [A]. *)
Definition viable_prefix (A : nt) (u : list item) : Prop := exists w v, derives A (u ++ w) v.

Lemma viable_prefix_app A u w : viable_prefix A (u ++ w) -> viable_prefix A u.
Proof. intros (w' & v & H). rewrite <- app_assoc in H. exists (w ++ w'), v. exact H. Qed.

Lemma stack_viable A st : wf (start_state A) st -> viable_prefix A (sy st).
Proof.
  intro Hw. destruct (viable A st Hw) as (t & w & Hv & Hy).
  destruct (tree_derives A t Hv) as (v & _ & Hd). rewrite Hy in Hd. exists w, v. exact Hd.
Qed.

Lemma parse_error_token A inp e i : parse A inp e = PErrToken i ->
  exists u r, inp = u ++ i :: r /\ viable_prefix A u /\ ~ viable_prefix A (u ++ [i]).
Proof.
  unfold parse. intro H.
  assert (E : lr_run (lr_fuel inp) A e [] inp = RErrTok i).
  { destruct (lr_run (lr_fuel inp) A e [] inp) as [t| | | | |]; try discriminate; [|congruence].
    destruct (sem t (BN A)); discriminate. }
  destruct (lr_run_err A e _ [] inp i (wf_nil _) E) as (u & r & -> & Hall).
  exists u, r. split; [reflexivity|].
  destruct (Hall LEof []) as (st & Hst & Herr & Hw & Hsy). cbn [sy app] in Hsy.
  split.
  - rewrite <- Hsy. apply stack_viable, Hw.
  - intros (r' & v & Hd). rewrite <- app_assoc in Hd. cbn [app] in Hd.
    destruct (derives_tree A _ v Hd) as (t & Hv & _ & Hy).
    destruct (Hall LEof r') as (st' & Hst' & Herr' & _).
    destruct (steps_complete A t Hv) as (s & Hs & Hdone). rewrite Hy in Hs.
    exact (steps_det_err _ _ _ _ _ _ _ _ _ _ Hst' Herr' Hs Hdone).
Qed.

Lemma parse_error_eof A inp e : parse A inp e = PErrEof ->
  e = LEof /\ viable_prefix A inp /\ (forall v, ~ derives A inp v).
Proof.
  unfold parse. intro H. pose proof (lr_run_spec0 A e inp) as Hs.
  destruct (lr_run (lr_fuel inp) A e [] inp) as [t| | | | |] eqn:E; try discriminate.
  { destruct (sem t (BN A)); discriminate. }
  inversion Hs as [| |st Hw Hall He Herr|]; subst. split; [reflexivity|].
  split; [apply stack_viable, Hw|].
  intros v Hd. apply parse_complete in Hd. unfold parse in Hd. rewrite E in Hd. discriminate.
Qed.

Lemma parse_panic A inp e : parse A inp e = PPanic -> e <> LEof /\ viable_prefix A inp.
Proof.
  unfold parse. pose proof (lr_run_spec0 A e inp) as H.
  destruct (lr_run (lr_fuel inp) A e [] inp) as [t| | | | |] eqn:E; try discriminate.
  - destruct (sem t (BN A)); discriminate.
  - inversion H as [| | |st Hw Hall He]; subst. split; [exact He|]. apply stack_viable, Hw.
Qed.

Lemma app_prefix_cmp {X} (u u' : list X) i i' r r' : u ++ i :: r = u' ++ i' :: r' ->
  (exists w, u ++ [i] ++ w = u') \/ (u = u' /\ i = i') \/ (exists w, u' ++ [i'] ++ w = u).
Proof.
  revert u'. induction u as [|x u IH]; intros [|x' u'] H; cbn in H.
  - injection H as -> _. auto.
  - injection H as -> ->. left. exists u'. reflexivity.
  - injection H as -> <-. right; right. exists u. reflexivity.
  - injection H as -> H. destruct (IH u' H) as [(w & <-)|[[-> ->]|(w & <-)]]; [left|right; left|right; right].
    + exists w. reflexivity.
    + auto.
    + exists w. reflexivity.
Qed.

Theorem parse_error_token_iff A inp e i :
  parse A inp e = PErrToken i <->
  exists u r, inp = u ++ i :: r /\ viable_prefix A u /\ ~ viable_prefix A (u ++ [i]).
Proof.
  split; [apply parse_error_token|]. intros (u & r & Hinp & Hv & Hn).
  assert (Hno : ~ viable_prefix A inp).
  { subst inp. intro H. apply Hn. replace (u ++ i :: r) with ((u ++ [i]) ++ r) in H
      by (rewrite <- app_assoc; reflexivity). eapply viable_prefix_app, H. }
  destruct (parse A inp e) as [v|i'| | |] eqn:E.
  - apply parse_sound in E. destruct E as [E _]. exfalso. apply Hno. exists [], v.
    rewrite app_nil_r. exact E.
  - apply parse_error_token in E. destruct E as (u' & r' & Hinp' & Hv' & Hn').
    rewrite Hinp in Hinp'. apply app_prefix_cmp in Hinp'.
    destruct Hinp' as [(w & <-)|[[_ ->]|(w & <-)]]; [|reflexivity|].
    + exfalso. apply Hn. rewrite app_assoc in Hv'. eapply viable_prefix_app, Hv'.
    + exfalso. apply Hn'. rewrite app_assoc in Hv. eapply viable_prefix_app, Hv.
  - apply parse_error_eof in E. exfalso. apply Hno, E.
  - apply parse_panic in E. exfalso. apply Hno, E.
  - exfalso. eapply parse_not_internal, E.
Qed.

Theorem parse_error_eof_iff A inp e :
  parse A inp e = PErrEof <->
  e = LEof /\ viable_prefix A inp /\ (forall v, ~ derives A inp v).
Proof.
  split; [apply parse_error_eof|]. intros (-> & Hv & Hn).
  destruct (parse A inp LEof) as [v|i'| | |] eqn:E; [| |reflexivity| |].
  - apply parse_sound in E. exfalso. eapply Hn, E.
  - apply parse_error_token in E. destruct E as (u & r & -> & _ & Hn').
    exfalso. apply Hn'. replace (u ++ i' :: r) with ((u ++ [i']) ++ r) in Hv
      by (rewrite <- app_assoc; reflexivity). eapply viable_prefix_app, Hv.
  - apply parse_panic in E. destruct E; congruence.
  - exfalso. eapply parse_not_internal, E.
Qed.

Theorem parse_panic_iff A inp e :
  parse A inp e = PPanic <-> e <> LEof /\ viable_prefix A inp.
Proof.
  split; [apply parse_panic|]. intros (He & Hv).
  destruct (parse A inp e) as [v|i'| | |] eqn:E; [| | |reflexivity|].
  - apply parse_sound in E. destruct E; congruence.
  - apply parse_error_token in E. destruct E as (u & r & -> & _ & Hn').
    exfalso. apply Hn'. replace (u ++ i' :: r) with ((u ++ [i']) ++ r) in Hv
      by (rewrite <- app_assoc; reflexivity). eapply viable_prefix_app, Hv.
  - apply parse_error_eof in E. destruct E; congruence.
  - exfalso. eapply parse_not_internal, E.
Qed.

(** A phrase is not empty. *)
Lemma derives_nonempty A toks v : derives A toks v -> toks <> [].
Proof.
  intro H. destruct (derives_tree A toks v H) as (t & Hv & _ & <-). eapply yield_nonempty, Hv.
Qed.
