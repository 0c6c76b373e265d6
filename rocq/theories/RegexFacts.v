(** Facts about the semantics of Regex.v. *)
From Verif Require Import Chars Regex.
From Coq Require Import PeanoNat Lia Wf_nat.
Local Open Scope nat_scope.
Notation len := List.length.

Scheme ways_ind2 := Induction for ways Sort Prop
  with all_ways_ind2 := Induction for all_ways Sort Prop.
Combined Scheme ways_mutind from ways_ind2, all_ways_ind2.

(** ** One answer *)
Lemma ways_det_both :
  (forall r p l, ways r p l -> forall l', ways r p l' -> l = l') /\
  (forall r ps l, all_ways r ps l -> forall l', all_ways r ps l' -> l = l').
Proof.
  apply (ways_mutind (fun r p l _ => forall l', ways r p l' -> l = l') (fun r ps l _ => forall l', all_ways r ps l' -> l = l')).
  - intros p l' H. inversion H; reflexivity.
  - intros s l' H. inversion H; subst; [reflexivity|congruence].
  - intros i s Hi l' H. inversion H; subst; [congruence|reflexivity].
  - intros n l i c s Hc l' H. inversion H; subst; [reflexivity|congruence].
  - intros n l i c s Hc l' H. inversion H; subst; [congruence|reflexivity].
  - intros n l i l' H. inversion H; reflexivity.
  - intros a b p ps l _ IH1 _ IH2 l' H. inversion H; subst. match goal with W : ways a p _ |- _ => apply IH1 in W; subst end. auto.
  - intros a b p l1 l2 _ IH1 _ IH2 l' H. inversion H; subst. f_equal; auto.
  - intros a p ps l _ IH1 _ _ IH2 l' H. inversion H; subst. match goal with W : ways a p _ |- _ => apply IH1 in W; subst end. f_equal. auto.
  - intros r l' H. inversion H. reflexivity.
  - intros r p ps l1 l2 _ IH1 _ IH2 l' H. inversion H; subst. f_equal; auto.
Qed.
Lemma ways_det r p l l' : ways r p l -> ways r p l' -> l = l'.
Proof. intros H H'. exact (proj1 ways_det_both r p l H l' H'). Qed.

Lemma finds_det r s o o' : finds r s o -> finds r s o' -> o = o'.
Proof.
  assert (Hex : forall b m rest l, s = b ++ m ++ rest -> ways r (len b, m ++ rest) ((len b + len m, rest) :: l) ->
    forall o, finds r s o -> exists b' m' rest', o = Some (b', m') /\ s = b' ++ m' ++ rest' /\ len b' <= len b).
  { intros b m rest l E W o2 [b' m' rest' l' E' W' H'|H'].
    - exists b', m', rest'. split; [reflexivity|]. split; [exact E'|]. destruct (Nat.le_gt_cases (len b') (len b)) as [Hle|Hlt]; [exact Hle|].
      specialize (H' b (m ++ rest) E Hlt). pose proof (ways_det _ _ _ _ W H'). discriminate.
    - specialize (H' b (m ++ rest) E). pose proof (ways_det _ _ _ _ W H'). discriminate. }
  intros H H'. destruct H as [b m rest l E W Hn|Hn].
  - destruct (Hex _ _ _ _ E W _ H') as (b' & m' & rest' & -> & E' & Hle).
    inversion H' as [b2 m2 rest2 l2 E2 W2 Hn2 Eb|]; subst b2 m2.
    destruct (Hex _ _ _ _ E2 W2 _ (f_some r s b m rest l E W Hn)) as (b3 & m3 & rest3 & [= <- <-] & _ & Hle').
    assert (Eb : b = b'). { rewrite E in E2. apply (f_equal (firstn (len b))) in E2. rewrite firstn_app, Nat.sub_diag, firstn_all, app_nil_r in E2.
      assert (El : len b = len b') by lia. rewrite El in E2. rewrite firstn_app, Nat.sub_diag, firstn_all, app_nil_r in E2. exact E2. }
    subst b'. rewrite E in E2. apply app_inv_head in E2. rewrite <- E2 in W2. pose proof (ways_det _ _ _ _ W W2) as Ew. injection Ew as El Er Et.
    subst rest2. apply app_inv_tail in E2. subst. reflexivity.
  - inversion H' as [b2 m2 rest2 l2 E2 W2 Hn2 Eb|]; [|reflexivity]. specialize (Hn _ _ E2). pose proof (ways_det _ _ _ _ W2 Hn). discriminate.
Qed.

(** ** Some answer *)
(** Can [r] match the empty text? *)
Fixpoint nullable (r : re) : bool :=
  match r with
  | REmpty | RStart | RStar _ => true
  | RClass _ _ => false
  | RSeq a b => nullable a && nullable b
  | RAlt a b => nullable a || nullable b
  end.
(** No star has a body that matches the empty text. *)
Fixpoint regular (r : re) : bool :=
  match r with
  | REmpty | RStart | RClass _ _ => true
  | RSeq a b | RAlt a b => regular a && regular b
  | RStar a => regular a && negb (nullable a)
  end.

Lemma all_total r ps n : (forall p, In p ps -> exists l, ways r p l /\ Forall (fun q => len (snd q) <= len (snd p)) l) ->
  (forall p, In p ps -> len (snd p) <= n) -> exists l, all_ways r ps l /\ Forall (fun q => len (snd q) <= n) l.
Proof.
  induction ps as [|p ps IH]; intros H Hn.
  - exists []. split; constructor.
  - destruct (H p (or_introl eq_refl)) as (l1 & W & F1). destruct IH as (l2 & A & F2); [intros; apply H; right; assumption|intros; apply Hn; right; assumption|].
    exists (l1 ++ l2). split; [constructor; assumption|]. apply Forall_app. split; [|exact F2].
    eapply Forall_impl; [|exact F1]. intros q Hq. cbn in Hq. specialize (Hn p (or_introl eq_refl)). lia.
Qed.
Lemma ways_total_aux r : regular r = true -> forall p, exists l, ways r p l
  /\ Forall (fun q => len (snd q) <= len (snd p)) l /\ (nullable r = false -> Forall (later p) l).
Proof.
  induction r as [| |n cl|a IHa b IHb|a IHa b IHb|a IHa]; cbn [regular nullable]; intros Hr p.
  - exists [p]. repeat split; [constructor|constructor; [lia|constructor]|discriminate].
  - destruct p as [[|i] s].
    + exists [(0, s)]. repeat split; [constructor|constructor; [lia|constructor]|discriminate].
    + exists []. repeat split; [constructor; discriminate|constructor|constructor].
  - destruct p as [i [|c s]].
    + exists []. repeat split; constructor.
    + destruct (in_class n cl c) eqn:E.
      * exists [(S i, s)]. repeat split; [constructor; exact E|constructor; [cbn; lia|constructor]|].
        intros _. constructor; [|constructor]. unfold later. cbn. lia.
      * exists []. repeat split; constructor. exact E.
  - apply andb_true_iff in Hr. destruct Hr as [Ha Hb]. destruct (IHa Ha p) as (ps & W & F & L).
    destruct (nullable a) eqn:Na.
    + destruct (all_total b ps (len (snd p))) as (l & A & Fl).
      { intros q _. destruct (IHb Hb q) as (l & Wl & Fl & _). eauto. }
      { intros q Hq. rewrite Forall_forall in F. exact (F q Hq). }
      destruct (nullable b) eqn:Nb.
      * exists l. split; [econstructor; eassumption|]. split; [exact Fl|discriminate].
      * exists l. split; [econstructor; eassumption|]. split; [exact Fl|]. intros _. clear W L Fl. revert l A.
        induction ps as [|q ps IHp]; intros l A; inversion A; subst; [constructor|]. apply Forall_app. inversion F; subst. split; [|apply IHp; assumption].
        destruct (IHb Hb q) as (l' & Wl' & Fl' & Ll'). match goal with W : ways b q l1 |- _ => rewrite (ways_det _ _ _ _ W Wl') end.
        eapply Forall_impl; [|exact (Ll' eq_refl)]. unfold later in *. cbn. intros; lia.
    + specialize (L eq_refl). destruct (all_total b ps (pred (len (snd p)))) as (l & A & Fl).
      { intros q _. destruct (IHb Hb q) as (l & Wl & Fl & _). eauto. }
      { intros q Hq. rewrite Forall_forall in L. specialize (L q Hq). unfold later in L. lia. }
      exists l. split; [econstructor; eassumption|]. split.
      * eapply Forall_impl; [|exact Fl]. cbn. intros; lia.
      * intros _. destruct ps as [|q ps].
        { inversion A. constructor. }
        inversion L; subst. unfold later in *. eapply Forall_impl; [|exact Fl]. cbn. intros; lia.
  - apply andb_true_iff in Hr. destruct Hr as [Ha Hb]. destruct (IHa Ha p) as (l1 & W1 & F1 & L1). destruct (IHb Hb p) as (l2 & W2 & F2 & L2).
    exists (l1 ++ l2). split; [constructor; assumption|]. split; [apply Forall_app; auto|]. rewrite orb_false_iff. intros [Na Nb]. apply Forall_app; auto.
  - apply andb_true_iff in Hr. destruct Hr as [Ha Na]. apply negb_true_iff in Na.
    remember (len (snd p)) as n eqn:En. revert p En. induction n as [n IHn] using lt_wf_ind. intros p En.
    destruct (IHa Ha p) as (ps & W & F & L). specialize (L Na).
    destruct (all_total (RStar a) ps n) as (l & A & Fl).
    { intros q Hq. rewrite Forall_forall in L. specialize (L q Hq). unfold later in L.
      destruct (IHn (len (snd q)) ltac:(lia) q eq_refl) as (l & Wl & Fl & _). eauto. }
    { intros q Hq. rewrite Forall_forall in F. specialize (F q Hq). lia. }
    exists (l ++ [p]). split; [econstructor; eassumption|]. split; [|discriminate]. apply Forall_app. split; [exact Fl|]. constructor; [lia|constructor].
Qed.
Lemma ways_total r p : regular r = true -> exists l, ways r p l.
Proof. intro H. destruct (ways_total_aux r H p) as (l & W & _). eauto. Qed.
Lemma all_ways_total r ps : regular r = true -> exists l, all_ways r ps l.
Proof.
  intro H. induction ps as [|p ps (l & IH)]; [eexists; constructor|]. destruct (ways_total r p H) as (l1 & W). eexists. constructor; eassumption.
Qed.

(** ** The preferred way *)
Definition first (r : re) (p : place) (o : option place) : Prop := exists l, ways r p l /\ hd_error l = o.

Lemma first_class n l i s : first (RClass n l) (i, s) (match s with c :: t => if in_class n l c then Some (S i, t) else None | [] => None end).
Proof.
  destruct s as [|c s]; [exists []; split; [constructor|reflexivity]|]. destruct (in_class n l c) eqn:E.
  - exists [(S i, s)]. split; [constructor; exact E|reflexivity].
  - exists []. split; [constructor; exact E|reflexivity].
Qed.
Lemma first_seq a b p q q' : regular b = true -> first a p (Some q) -> first b q (Some q') -> first (RSeq a b) p (Some q').
Proof.
  intros Hb (l1 & W1 & E1) (l2 & W2 & E2). destruct l1 as [|q1 ps]; [discriminate|]. injection E1 as ->.
  destruct (all_ways_total b ps Hb) as (l & A). exists (l2 ++ l). split; [econstructor; [exact W1|constructor; assumption]|].
  destruct l2; [discriminate|exact E2].
Qed.
Lemma first_seq_none a b p : first a p None -> first (RSeq a b) p None.
Proof.
  intros (l1 & W1 & E1). destruct l1 as [|q1 ps]; [|discriminate]. exists []. split; [econstructor; [exact W1|constructor]|reflexivity].
Qed.
Lemma first_seq_only a b p q : ways a p [q] -> first b q None -> first (RSeq a b) p None.
Proof.
  intros W1 (l2 & W2 & E2). destruct l2; [|discriminate]. exists ([] ++ []). split; [econstructor; [exact W1|]|reflexivity].
  constructor; [exact W2|constructor].
Qed.
(** after one character *)
Lemma first_char_seq n l b i s o : regular b = true ->
  match s with c :: t => if in_class n l c then first b (S i, t) o else o = None | [] => o = None end ->
  first (RSeq (RClass n l) b) (i, s) o.
Proof.
  intros Hb H. destruct s as [|c s]; [subst; apply first_seq_none, first_class|]. destruct (in_class n l c) eqn:E.
  - destruct o as [q|].
    + eapply first_seq; [exact Hb| |exact H]. pose proof (first_class n l i (c :: s)) as F. cbv iota in F. rewrite E in F. exact F.
    + eapply first_seq_only; [constructor; exact E|exact H].
  - subst. apply first_seq_none. pose proof (first_class n l i (c :: s)) as F. cbv iota in F. rewrite E in F. exact F.
Qed.
Lemma first_alt a b p o1 o2 : first a p o1 -> first b p o2 -> first (RAlt a b) p (match o1 with Some q => Some q | None => o2 end).
Proof.
  intros (l1 & W1 & E1) (l2 & W2 & E2). exists (l1 ++ l2). split; [constructor; assumption|]. subst. destruct l1; reflexivity.
Qed.

(** A star of a class takes as much as it can. *)
Definition skip_while (f : char -> bool) (s : str) : str := skipn (len (take_while f s)) s.
Lemma take_skip f s : s = take_while f s ++ skip_while f s.
Proof. unfold skip_while. induction s as [|c s IH]; [reflexivity|]. cbn. destruct (f c); [|reflexivity]. cbn. rewrite <- IH. reflexivity. Qed.
Lemma first_class_star n l f i s : (forall c, in_class n l c = f c) ->
  first (RStar (RClass n l)) (i, s) (Some (i + len (take_while f s), skip_while f s)).
Proof.
  intro Hf. unfold skip_while. revert i. induction s as [|c s IH]; intro i.
  - exists ([] ++ [(i, [])]). split; [econstructor; [constructor|constructor|constructor]|]. cbn. rewrite Nat.add_0_r. reflexivity.
  - cbn [take_while]. destruct (f c) eqn:E; rewrite <- Hf in E.
    + destruct (IH (S i)) as (l' & W & Hh). exists ((l' ++ []) ++ [(i, c :: s)]). split.
      * econstructor; [constructor; exact E|constructor; [unfold later; cbn; lia|constructor]|]. constructor; [exact W|constructor].
      * destruct l' as [|q l']; [discriminate|]. cbn [List.length skipn app hd_error] in *. rewrite Nat.add_succ_r. exact Hh.
    + exists ([] ++ [(i, c :: s)]). split; [econstructor; [constructor; exact E|constructor|constructor]|]. cbn. rewrite Nat.add_0_r. reflexivity.
Qed.

(** ** Searching *)
(** An expression that starts with [^] is only matched at the start. *)
Lemma finds_start a s o : regular a = true -> first a (0, s) (match o with Some m => Some (len m, skipn (len m) s) | None => None end) ->
  match o with Some m => s = m ++ skipn (len m) s | None => True end ->
  finds (RSeq RStart a) s (option_map (fun m => ([], m)) o).
Proof.
  intros Ha (l & W & E) Hm.
  assert (W0 : ways (RSeq RStart a) (0, s) (l ++ [])) by (econstructor; [constructor|constructor; [exact W|constructor]]).
  destruct o as [m|]; cbn [option_map].
  - destruct l as [|q l]; [discriminate|]. injection E as ->. set (rest := skipn (len m) s) in *. clearbody rest. subst s.
    apply (f_some _ _ [] m rest (l ++ [])); [reflexivity|exact W0|]. cbn. lia.
  - destruct l; [|discriminate]. apply f_none. intros b t Eb. destruct b as [|c b].
    + cbn [app] in Eb. subst t. exact W0.
    + econstructor; [apply w_inside; discriminate|constructor].
Qed.

(** ** Ways and matches *)
Lemma ways_matches_both :
  (forall r p l, ways r p l -> forall q, In q l -> matches r p q) /\
  (forall r ps l, all_ways r ps l -> forall q, In q l -> exists p, In p ps /\ matches r p q).
Proof.
  apply (ways_mutind (fun r p l _ => forall q, In q l -> matches r p q) (fun r ps l _ => forall q, In q l -> exists p, In p ps /\ matches r p q)).
  - intros p q [<- |[]]. constructor.
  - intros s q [<- |[]]. constructor.
  - intros i s Hi q [].
  - intros n l i c s Hc q [<- |[]]. constructor. exact Hc.
  - intros n l i c s Hc q [].
  - intros n l i q [].
  - intros a b p ps l _ IH1 _ IH2 q Hq. destruct (IH2 q Hq) as (p' & Hp' & M). eapply m_seq; [apply IH1, Hp'|exact M].
  - intros a b p l1 l2 _ IH1 _ IH2 q Hq. apply in_app_iff in Hq. destruct Hq; [apply m_left|apply m_right]; auto.
  - intros a p ps l _ IH1 _ _ IH2 q Hq. apply in_app_iff in Hq. destruct Hq as [Hq|[<- |[]]]; [|constructor].
    destruct (IH2 q Hq) as (p' & Hp' & M). eapply m_more; [apply IH1, Hp'|exact M].
  - intros r q [].
  - intros r p ps l1 l2 _ IH1 _ IH2 q Hq. apply in_app_iff in Hq. destruct Hq as [Hq|Hq].
    + exists p. split; [left; reflexivity|auto].
    + destruct (IH2 q Hq) as (p' & Hp' & M). exists p'. split; [right|]; assumption.
Qed.
Lemma all_ways_in r ps l p : all_ways r ps l -> In p ps -> exists l', ways r p l' /\ incl l' l.
Proof.
  intros A Hp. induction A as [r|r p' ps l1 l2 W A IH]; [destruct Hp|]. destruct Hp as [-> |Hp].
  - exists l1. split; [exact W|apply incl_appl, incl_refl].
  - destruct (IH Hp) as (l' & W' & I). exists l'. split; [exact W'|apply incl_appr, I].
Qed.
Lemma matches_ways r p q : matches r p q -> forall l, ways r p l -> In q l.
Proof.
  induction 1 as [p|s|n l0 i c s Hc|a b p q q' _ IH1 _ IH2|a b p q _ IH|a b p q _ IH|a p|a p q q' _ IH1 _ IH2]; intros l W; inversion W; subst.
  - left. reflexivity.
  - left. reflexivity.
  - congruence.
  - left. reflexivity.
  - congruence.
  - destruct (all_ways_in b ps l q) as (l' & W' & I); [assumption|apply IH1; assumption|]. apply I, IH2, W'.
  - apply in_app_iff. left. auto.
  - apply in_app_iff. right. auto.
  - apply in_app_iff. right. left. reflexivity.
  - apply in_app_iff. left. destruct (all_ways_in (RStar a) ps l0 q) as (l' & W' & I); [assumption|apply IH1; assumption|]. apply I, IH2, W'.
Qed.
Lemma matches_span r p q : matches r p q -> exists m, snd p = m ++ snd q /\ fst q = fst p + len m.
Proof.
  induction 1 as [p|s|n l0 i c s Hc|a b p q q' _ (m1 & A1 & B1) _ (m2 & A2 & B2)|a b p q _ IH|a b p q _ IH|a p|a p q q' _ (m1 & A1 & B1) _ (m2 & A2 & B2)].
  - exists []. cbn. split; [reflexivity|lia].
  - exists []. cbn. split; [reflexivity|lia].
  - exists [c]. cbn. split; [reflexivity|lia].
  - exists (m1 ++ m2). rewrite <- app_assoc, app_length. split; [congruence|lia].
  - exact IH.
  - exact IH.
  - exists []. cbn. split; [reflexivity|lia].
  - exists (m1 ++ m2). rewrite <- app_assoc, app_length. split; [congruence|lia].
Qed.
Lemma app_firstn (b t : str) : firstn (len b) (b ++ t) = b /\ skipn (len b) (b ++ t) = t.
Proof.
  split.
  - rewrite firstn_app, Nat.sub_diag, firstn_all. cbn. apply app_nil_r.
  - rewrite skipn_app, Nat.sub_diag, skipn_all. reflexivity.
Qed.
Lemma same_split (b t b' t' : str) : b ++ t = b' ++ t' -> len b = len b' -> b = b' /\ t = t'.
Proof.
  intros E El. destruct (app_firstn b t) as [A B]. destruct (app_firstn b' t') as [A' B']. rewrite E, El in A, B. split; congruence.
Qed.
Lemma finds_total r s : regular r = true -> exists o, finds r s o.
Proof.
  intro Hr.
  assert (H : forall t b, s = b ++ t -> (forall b' t', s = b' ++ t' -> len b' < len b -> ways r (len b', t') []) -> exists o, finds r s o).
  { induction t as [|c t IH]; intros b E Hb.
    all: match type of E with _ = _ ++ ?t0 => destruct (ways_total r (len b, t0) Hr) as (l & W) end.
    all: destruct l as [|[j rest] l];
      [|destruct (matches_span _ _ _ (proj1 ways_matches_both _ _ _ W _ (or_introl eq_refl))) as (m & Em & Ej); cbn [fst snd] in Em, Ej;
        exists (Some (b, m)); subst j; rewrite Em in W, E; exact (f_some r s b m rest l E W Hb)].
    - exists None. apply f_none. intros b' t' E'. destruct (Nat.lt_ge_cases (len b') (len b)) as [Hlt|Hge]; [exact (Hb _ _ E' Hlt)|].
      assert (Hl := f_equal (@List.length _) E'). rewrite E, !app_length in Hl. cbn [List.length] in Hl.
      rewrite E in E'. destruct (same_split _ _ _ _ E') as [<- <-]; [lia|]. exact W.
    - apply (IH (b ++ [c])); [rewrite <- app_assoc; exact E|]. intros b' t' E' Hl. rewrite app_length in Hl. cbn [List.length] in Hl.
      destruct (Nat.eq_dec (len b') (len b)) as [El|El]; [|apply Hb; [exact E'|lia]].
      rewrite E in E'. destruct (same_split _ _ _ _ E' (eq_sym El)) as [<- <-]. exact W. }
  apply (H s []); [reflexivity|]. cbn. lia.
Qed.
