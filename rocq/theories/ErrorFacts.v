(** The expected-token list of a parse error (ErrorText.v). *)
From Verif Require Import Chars Lexer Ast Grammar Cfg Tables Parser LrCheck LrFacts LrProofs GrammarLink
  Types Visitor Emitter Contract DebugText ErrorText.
Local Open Scope nat_scope.

Lemma hd_top s0 st : hd s0 (map fst st) = top s0 st.
Proof. destruct st as [|[s t] st]; reflexivity. Qed.

(** The simulation on states follows the automaton. *)
Lemma accepts_spec A j k : kind_of (item_token j) = Some k ->
  forall fuel st, wf (start_state A) st -> measure st [j] < fuel ->
  (accepts fuel (start_state A) (map fst st) (tk_code k) = Some true
   /\ exists st', wf (start_state A) st' /\ sy st' = sy st ++ [j])
  \/ (accepts fuel (start_state A) (map fst st) (tk_code k) = Some false
      /\ forall e r, exists st', steps A e st (j :: r) st' (j :: r)
                        /\ lr_step A e st' (j :: r) = ErrTok j).
Proof.
  intro Hk. induction fuel as [|f IH]; intros st Hw Hm; [lia|].
  pose proof (wf_top_valid _ _ Hw) as Hid.
  pose proof (lr_step_spec A LEof st [j] Hw) as Hsp.
  assert (Est : forall e r, lr_step A e st (j :: r) = lr_act A st (j :: r) (tk_code k) (ErrTok j))
    by (intros e r; cbn [lr_step]; rewrite Hk; reflexivity).
  rewrite Est in Hsp. unfold lr_act in Hsp, Est. cbn [accepts]. rewrite hd_top.
  destruct (action_at (top (start_state A) st) (tk_code k)) as [[s|b n]|] eqn:Ea.
  - left. split; [reflexivity|]. inversion Hsp as [st' inp' Hw' Hsy Hms| | | |]; subst.
    eexists. split; [exact Hw'|]. rewrite app_nil_r in Hsy. exact Hsy.
  - destruct (fact_reduce _ _ _ _ Hid Ea) as (rhs & Hr & Hc & Heof).
    rewrite Hr in Est, Hsp. rewrite Hr.
    destruct (pop_spec A b n rhs _ Hr st [] Hw Hc) as (ts & st' & Hp & Hf & Hw' & Hc0 & Hsy & Hlen & Hsk).
    rewrite firstn_all, app_nil_r in Hp. rewrite Hp in Est, Hsp.
    pose proof (wf_top_valid _ _ Hw') as Hid'.
    destruct (fact_base _ _ _ Hid' Hc0) as [(B & HB & Hs)|[Hnst Hg]].
    { subst b. specialize (Heof eq_refl). pose proof (tk_code_63 k). unfold eof_code in Heof. lia. }
    assert (Eb : bsym_eqb b (BS A) = false).
    { destruct (bsym_eqb b (BS A)) eqn:Eb; [|reflexivity]. apply bsym_eqb_eq in Eb. subst b. discriminate. }
    rewrite Eb in Est, Hsp.
    destruct (goto_at (top (start_state A) st') b) as [s|] eqn:Eg; [|congruence].
    inversion Hsp as [st1 inp1 Hw1 Hsy1 Hms| | | |]; subst.
    specialize (IH _ Hw1 ltac:(lia)). cbn [map fst] in IH.
    rewrite skipn_map, hd_top, Eg.
    assert (Hacc : match b with BS _ => Some true
              | _ => accepts f (start_state A) (s :: map fst (skipn (List.length rhs) st)) (tk_code k) end
            = accepts f (start_state A) (s :: map fst (skipn (List.length rhs) st)) (tk_code k))
      by (destruct b; try reflexivity; discriminate).
    rewrite Hacc. destruct IH as [[E (st2 & Hw2 & Hsy2)]|[E Hall]]; [left|right]; (split; [exact E|]).
    + exists st2. split; [exact Hw2|]. rewrite Hsy2. apply app_inv_tail in Hsy1. rewrite Hsy1. reflexivity.
    + intros e r. destruct (Hall e r) as (st2 & Hst & Herr). exists st2. split; [|exact Herr].
      econstructor; [apply Est|exact Hst].
  - right. split; [reflexivity|]. intros e r. exists st. split; [constructor|]. apply Est.
Qed.

Lemma accepts_fuel_enough st j : measure st [j] < accepts_fuel (List.length (map fst st)).
Proof. unfold measure, accepts_fuel, R. rewrite map_length. cbn [List.length]. lia. Qed.

Lemma accepts_iff A j k st : kind_of (item_token j) = Some k -> wf (start_state A) st ->
  let b := accepts (accepts_fuel (List.length (map fst st))) (start_state A) (map fst st) (tk_code k) in
  (b = Some true /\ exists st', wf (start_state A) st' /\ sy st' = sy st ++ [j])
  \/ (b = Some false /\ forall e r, exists st', steps A e st (j :: r) st' (j :: r)
                        /\ lr_step A e st' (j :: r) = ErrTok j).
Proof. intros Hk Hw. apply accepts_spec; [exact Hk|exact Hw|apply accepts_fuel_enough]. Qed.

(** Where the automaton stops. *)
Lemma stop_spec A e fuel : forall st inp, wf (start_state A) st -> measure st inp < fuel ->
  match lr_run fuel A e st inp with
  | RErrTok i => exists st' r, stop_states fuel A e st inp = Some (map fst st')
      /\ wf (start_state A) st' /\ sy st ++ inp = sy st' ++ i :: r
      /\ steps A e st inp st' (i :: r) /\ lr_step A e st' (i :: r) = ErrTok i
  | RErrEof => exists st', stop_states fuel A e st inp = Some (map fst st')
      /\ wf (start_state A) st' /\ sy st ++ inp = sy st'
  | _ => stop_states fuel A e st inp = None
  end.
Proof.
  induction fuel as [|f IH]; intros st inp Hw Hm; [lia|].
  cbn [lr_run stop_states]. pose proof (lr_step_spec A e st inp Hw) as Hs.
  destruct (lr_step A e st inp) as [st' inp'|t|i| | |] eqn:E; inversion Hs; subst; try reflexivity.
  - match goal with H : _ ++ inp' = _ |- _ => rename H into Hsy end.
    specialize (IH st' inp' ltac:(assumption) ltac:(lia)).
    destruct (lr_run f A e st' inp'); try exact IH.
    + destruct IH as (st2 & r & E1 & Hw2 & Hsy2 & Hst & Herr). exists st2, r. split; [exact E1|].
      split; [exact Hw2|]. split; [congruence|]. split; [econstructor; eassumption|exact Herr].
    + destruct IH as (st2 & E1 & Hw2 & Hsy2). exists st2. split; [exact E1|]. split; [exact Hw2|]. congruence.
  - exists st, r. split; [reflexivity|]. split; [exact Hw|]. split; [reflexivity|]. split; [constructor|exact E].
  - exists st. split; [reflexivity|]. split; [exact Hw|]. apply app_nil_r.
Qed.

Lemma in_all_tks k : In k all_tks.
Proof. destruct k; cbn; tauto. Qed.

Lemma expected_some A inp e (st : stack) : stop_states (lr_fuel inp) A e [] inp = Some (map fst st) -> forall k,
  In k (expected A inp e) <->
  accepts (accepts_fuel (List.length (map fst st))) (start_state A) (map fst st) (tk_code k) = Some true.
Proof.
  intros E k. unfold expected. rewrite E, filter_In.
  pose proof (in_all_tks k) as Hin.
  destruct (accepts _ _ _ (tk_code k)) as [[]|]; split; intro H; try tauto; try discriminate;
    destruct H; discriminate.
Qed.

Lemma parse_run_tok A inp e i : parse A inp e = PErrToken i -> lr_run (lr_fuel inp) A e [] inp = RErrTok i.
Proof.
  unfold parse. intro H. destruct (lr_run (lr_fuel inp) A e [] inp) as [t| | | | |]; try discriminate; [|congruence].
  destruct (sem t (BN A)); discriminate.
Qed.
Lemma parse_run_eof A inp e : parse A inp e = PErrEof -> lr_run (lr_fuel inp) A e [] inp = RErrEof.
Proof.
  unfold parse. intro H. destruct (lr_run (lr_fuel inp) A e [] inp) as [t| | | | |]; try discriminate; [|congruence].
  destruct (sem t (BN A)); discriminate.
Qed.

Lemma listed_viable A st k j : wf (start_state A) st ->
  accepts (accepts_fuel (List.length (map fst st))) (start_state A) (map fst st) (tk_code k) = Some true ->
  kind_of (item_token j) = Some k -> viable_prefix A (sy st ++ [j]).
Proof.
  intros Hw Ha Hk. destruct (accepts_iff A j k st Hk Hw) as [[_ (st' & Hw' & Hsy')]|[E _]]; [|congruence].
  rewrite <- Hsy'. apply stack_viable, Hw'.
Qed.

(** Reading up to a token that is no terminal makes no reduction on its account. *)
Lemma steps_swap A e st u i r st' : kind_of (item_token i) = None -> forall inp,
  steps A e st inp st' (i :: r) -> inp = u ++ i :: r ->
  forall e' w, steps A e' st (u ++ w) st' w.
Proof.
  intros Hk inp Hs. remember (i :: r) as fin eqn:Ef. revert u Ef.
  induction Hs as [|st inp st1 inp1 st2 inp2 H Hs IH]; intros u Ef Eu e' w; subst.
  - assert (u = []) as ->.
    { assert (List.length (i :: r) = List.length (u ++ i :: r)) as E by congruence.
      rewrite app_length in E. destruct u; [reflexivity|cbn in E; lia]. }
    constructor.
  - assert (u <> []) as Hu.
    { intros ->. cbn [app lr_step] in H. rewrite Hk in H. discriminate. }
    destruct (lr_step_app A e e' st u (i :: r) w _ _ Hu H) as (u' & -> & H').
    econstructor; [exact H'|]. eapply IH; reflexivity.
Qed.

(** Only terminals occur in phrases. *)
Lemma yield_kinds t : forall x, valid x t -> Forall (fun i => kind_of (item_token i) <> None) (yield t).
Proof.
  induction t as [i|b j ts IH] using tree_rect'; intros x Hv.
  - inversion Hv; subst. cbn [yield]. constructor; [congruence|constructor].
  - inversion Hv as [|? ? rhs ? Hr Hf]; subst. cbn [yield]. clear - IH Hf.
    revert IH. induction Hf as [|x t xs ts Hx Hf IHf]; intro IH; cbn [flat_map]; [constructor|].
    inversion IH; subst. apply Forall_app. split; [eauto|auto].
Qed.

Lemma lr_step_len A e st inp st' inp' : lr_step A e st inp = Cont st' inp' -> List.length inp' <= List.length inp.
Proof.
  assert (Hact : forall la err, lr_act A st inp la err = Cont st' inp' ->
            (forall x y, err <> Cont x y) -> List.length inp' <= List.length inp).
  { intros la err. unfold lr_act. destruct (action_at (top (start_state A) st) la) as [[s|b j]|].
    - destruct inp as [|i r]; [discriminate|]. intros [= <- <-] _. cbn. lia.
    - destruct (rhs_of b j); [|discriminate]. destruct (pop (rev l) st []) as [[ts st1]|]; [|discriminate].
      destruct (bsym_eqb b (BS A)).
      + destruct ts as [|? [|]]; try discriminate. destruct st1; discriminate.
      + destruct (goto_at (top (start_state A) st1) b); [|discriminate]. intros [= _ <-] _. lia.
    - intros -> H. exfalso. eapply H. reflexivity. }
  unfold lr_step. destruct inp as [|i r].
  - destruct e; try discriminate. intro H. eapply Hact; [exact H|discriminate].
  - destruct (kind_of (item_token i)); [|discriminate]. intro H. eapply Hact; [exact H|discriminate].
Qed.
Lemma steps_len A e st inp st' inp' : steps A e st inp st' inp' -> List.length inp' <= List.length inp.
Proof. induction 1 as [|st inp st1 inp1 st2 inp2 H Hs IH]; [lia|]. apply lr_step_len in H. lia. Qed.

(** What is read up to the offending token does not depend on what follows it. *)
Lemma steps_local A e st inp st' i r : forall x, steps A e st inp st' (i :: r) -> inp = x ++ r ->
  forall e' r', steps A e' st (x ++ r') st' (i :: r').
Proof.
  intros x Hs. remember (i :: r) as fin eqn:Ef. revert x Ef.
  induction Hs as [|st inp st1 inp1 st2 inp2 H Hs IH]; intros x Ef Ex e' r'; subst.
  - change (i :: r) with ([i] ++ r) in Ex. apply app_inv_tail in Ex. subst x. constructor.
  - pose proof (steps_len _ _ _ _ _ _ Hs) as L1. pose proof (lr_step_len _ _ _ _ _ _ H) as L2.
    assert (x <> []) as Hx by (intros ->; cbn in *; lia).
    destruct (lr_step_app A e e' st x r r' _ _ Hx H) as (x' & -> & H').
    econstructor; [exact H'|]. eapply IH; reflexivity.
Qed.

Theorem expected_token_sound A inp e i : parse A inp e = PErrToken i ->
  exists u r, inp = u ++ i :: r /\ viable_prefix A u /\ ~ viable_prefix A (u ++ [i]) /\
    forall k j, In k (expected A inp e) -> kind_of (item_token j) = Some k -> viable_prefix A (u ++ [j]).
Proof.
  intro H. apply parse_run_tok in H.
  pose proof (stop_spec A e _ [] inp (wf_nil _) (lr_fuel_enough inp)) as Hs. rewrite H in Hs.
  destruct Hs as (st & r & E & Hw & Hsy & Hst & Herr). exists (sy st), r. split; [exact Hsy|].
  split; [apply stack_viable, Hw|]. split.
  - intros (w & v & Hd). destruct (derives_tree A _ v Hd) as (t & Hv & _ & Hy).
    destruct (steps_complete A t Hv) as (s & Hs & Hdone). rewrite Hy in Hs.
    cbn [sy app] in Hsy. replace (sy st ++ i :: r) with ((sy st ++ [i]) ++ r) in Hsy by (rewrite <- app_assoc; reflexivity).
    pose proof (steps_local A e [] inp st i r _ Hst Hsy LEof w) as Hst'.
    exact (steps_det_err _ _ _ _ _ _ _ _ _ _ Hst' (lr_step_local _ _ _ _ _ _ _ Herr) Hs Hdone).
  - intros k j Hk Hj. apply (proj1 (expected_some _ _ _ _ E k)) in Hk. eapply listed_viable; eassumption.
Qed.

Theorem expected_eof_sound A inp e : parse A inp e = PErrEof ->
  forall k j, In k (expected A inp e) -> kind_of (item_token j) = Some k -> viable_prefix A (inp ++ [j]).
Proof.
  intro H. apply parse_run_eof in H.
  pose proof (stop_spec A e _ [] inp (wf_nil _) (lr_fuel_enough inp)) as Hs. rewrite H in Hs.
  destruct Hs as (st & E & Hw & Hsy). cbn [sy app] in Hsy. rewrite Hsy.
  intros k j Hk Hj. rewrite <- Hsy in Hk. apply (proj1 (expected_some _ _ _ _ E k)) in Hk.
  eapply listed_viable; eassumption.
Qed.

Theorem expected_unknown_complete A inp e i u r : parse A inp e = PErrToken i -> kind_of (item_token i) = None ->
  inp = u ++ i :: r -> viable_prefix A u ->
  forall k j, kind_of (item_token j) = Some k -> viable_prefix A (u ++ [j]) -> In k (expected A inp e).
Proof.
  intros H Hnone Einp Hu k j Hk (w & v & Hd).
  assert (Hn : ~ viable_prefix A (u ++ [i])).
  { pose proof H as H0. apply parse_error_token in H0. destruct H0 as (u' & r' & E' & Hv' & Hn').
    rewrite Einp in E'. apply app_prefix_cmp in E'.
    destruct E' as [(x & <-)|[[-> _]|(x & <-)]].
    - exfalso. clear - Hv' Hnone. rewrite app_assoc in Hv'. apply viable_prefix_app in Hv'.
      destruct Hv' as (w & v & Hd).
      destruct (derives_tree A _ v Hd) as (t & Hv & _ & Hy).
      pose proof (yield_kinds t _ Hv) as Hall. rewrite Hy in Hall. rewrite <- app_assoc in Hall.
      apply Forall_app in Hall. destruct Hall as [_ Hall]. inversion Hall; subst. congruence.
    - exact Hn'.
    - exfalso. apply Hn'. clear - Hu. rewrite app_assoc in Hu. apply viable_prefix_app in Hu. exact Hu. }
  apply parse_run_tok in H.
  pose proof (stop_spec A e _ [] inp (wf_nil _) (lr_fuel_enough inp)) as Hs. rewrite H in Hs.
  destruct Hs as (st & r' & E & Hw & Hsy & Hst & Herr). cbn [sy app] in Hsy.
  assert (sy st = u) as Esy.
  { rewrite Einp in Hsy. apply app_prefix_cmp in Hsy. destruct Hsy as [(x & Hx)|[[-> _]|(x & Hx)]]; [|reflexivity|].
    - exfalso. apply Hn. pose proof (stack_viable A st Hw) as Hvs. rewrite <- Hx, app_assoc in Hvs.
      eapply viable_prefix_app, Hvs.
    - exfalso. clear - Hx Hu Hnone. rewrite <- Hx, app_assoc in Hu. apply viable_prefix_app in Hu.
      destruct Hu as (w & v & Hd). destruct (derives_tree A _ v Hd) as (t & Hv & _ & Hy).
      pose proof (yield_kinds t _ Hv) as Hall. rewrite Hy in Hall. rewrite <- app_assoc in Hall.
      apply Forall_app in Hall. destruct Hall as [_ Hall]. inversion Hall; subst. congruence. }
  apply (expected_some _ _ _ _ E k).
  destruct (accepts_iff A j k st Hk Hw) as [[Ha _]|[Ha Hall]]; [exact Ha|]. exfalso.
  rewrite <- app_assoc in Hd. cbn [app] in Hd.
  destruct (derives_tree A _ v Hd) as (t & Hv & _ & Hy).
  destruct (steps_complete A t Hv) as (s & Hs & Hdone). rewrite Hy in Hs.
  destruct (Hall LEof w) as (st' & Hst' & Herr').
  assert (steps A LEof [] (u ++ j :: w) st' (j :: w)) as Hfull.
  { eapply steps_trans; [|exact Hst']. eapply steps_swap; [exact Hnone|exact Hst|]. rewrite <- Esy. exact Hsy. }
  exact (steps_det_err _ _ _ _ _ _ _ _ _ _ Hfull Herr' Hs Hdone).
Qed.
