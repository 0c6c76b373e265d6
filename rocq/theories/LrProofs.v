(** Correctness of the automaton of Parser.v with respect to the parse trees
    of the normalised grammar (Cfg.v): safety, soundness, termination,
    completeness, unambiguity, correct prefix property. *)
From Verif Require Import Chars Lexer Ast Grammar Cfg Tables Parser LrCheck LrFacts.
Local Open Scope nat_scope.

Inductive wf (s0 : N) : stack -> Prop :=
| wf_nil : wf s0 []
| wf_cons : forall s t st x, wf s0 st -> valid x t -> trans (top s0 st) x = Some s -> wf s0 ((s, t) :: st).

Fixpoint sy (st : stack) : list item :=
  match st with [] => [] | (_, t) :: r => sy r ++ yield t end.

Lemma wf_top_valid A st : wf (start_state A) st -> valid_id (top (start_state A) st).
Proof.
  induction 1 as [|s t st x H IH Hv Ht]; cbn [top]; [apply fact_start|].
  eapply trans_target; eassumption.
Qed.

Lemma valid_root x t : valid x t -> root t = Some x.
Proof. destruct 1 as [k i H|b j rhs ts H F]; cbn [root]; [rewrite H|]; reflexivity. Qed.

Lemma bsym_eqb_refl b : bsym_eqb b b = true.
Proof. apply bsym_eqb_eq; reflexivity. Qed.

Lemma firstn_S_nth {A} (l : list A) d x : nth_error l d = Some x -> firstn (S d) l = firstn d l ++ [x].
Proof.
  revert d. induction l as [|y l IH]; intros [|d] H; try discriminate.
  - cbn in H. injection H as ->. reflexivity.
  - cbn [firstn app]. f_equal. apply IH, H.
Qed.

Lemma pop_spec A b j rhs d : rhs_of b j = Some rhs ->
  forall st acc, wf (start_state A) st -> core (top (start_state A) st) b j d ->
  exists ts st', pop (rev (firstn d rhs)) st acc = Some (ts ++ acc, st')
    /\ Forall2 valid (firstn d rhs) ts /\ wf (start_state A) st'
    /\ core (top (start_state A) st') b j 0
    /\ sy st = sy st' ++ flat_map yield ts /\ List.length st = d + List.length st'
    /\ st' = skipn d st.
Proof.
  intro Hr. induction d as [|d IH]; intros st acc Hw Hc.
  - exists [], st. cbn. rewrite app_nil_r. repeat split; auto.
  - destruct Hw as [|s t st x Hw Hv Ht].
    + destruct (fact_start A) as (_ & _ & H0). specialize (H0 _ _ _ Hc). discriminate.
    + cbn [top] in Hc. pose proof (wf_top_valid _ _ Hw) as Hid.
      destruct (fact_back _ _ _ _ _ _ Hid Ht Hc) as (rhs' & Hr' & Hx & Hc').
      rewrite Hr in Hr'. injection Hr' as <-.
      destruct (IH st (t :: acc) Hw Hc') as (ts & st' & Hp & Hf & Hw' & Hc0 & Hsy & Hlen & Hsk).
      exists (ts ++ [t]), st'. rewrite (firstn_S_nth _ _ _ Hx), rev_app_distr. cbn [rev app pop].
      rewrite (valid_root _ _ Hv), bsym_eqb_refl, Hp. rewrite <- app_assoc. cbn [app].
      split; [reflexivity|]. split; [apply Forall2_app; auto|]. split; [exact Hw'|].
      split; [exact Hc0|]. split.
      * cbn [sy]. rewrite Hsy, flat_map_app, <- app_assoc. cbn [flat_map]. rewrite app_nil_r. reflexivity.
      * split; [cbn [List.length]; rewrite Hlen; reflexivity|exact Hsk].
Qed.

(** Popping a complete right hand side. *)
Lemma pop_full A b j rhs st : rhs_of b j = Some rhs ->
  wf (start_state A) st -> core (top (start_state A) st) b j (List.length rhs) ->
  exists ts st', pop (rev rhs) st [] = Some (ts, st')
    /\ Forall2 valid rhs ts /\ wf (start_state A) st'
    /\ core (top (start_state A) st') b j 0
    /\ sy st = sy st' ++ flat_map yield ts /\ List.length st = List.length rhs + List.length st'.
Proof.
  intros Hr Hw Hc. destruct (pop_spec A b j rhs _ Hr st [] Hw Hc) as (ts & st' & H).
  rewrite firstn_all, app_nil_r in H. exists ts, st'. tauto.
Qed.

(** A stack whose top has an item of the start production is empty. *)
Lemma base_start A st j B : wf (start_state A) st -> core (top (start_state A) st) (BS B) j 0 ->
  st = [] /\ A = B.
Proof.
  intros Hw Hc. pose proof (wf_top_valid _ _ Hw) as Hid.
  destruct (fact_base _ _ _ Hid Hc) as [(B' & HB & Hs)|[H _]]; [|discriminate].
  injection HB as <-.
  destruct Hw as [|s t st x Hw Hv Ht].
  - split; [reflexivity|]. apply start_state_inj, Hs.
  - exfalso. cbn [top] in Hs. subst s. eapply trans_not_start; [|exact Ht].
    apply wf_top_valid, Hw.
Qed.

(** *** One step: safety, preservation, termination measure *)
Definition R : nat := max_rank.
Definition rank (b : bsym) : nat := N.to_nat (rank_of b).
Definition top_rank (st : stack) : nat :=
  match st with
  | [] => 0
  | (_, t) :: _ => match root t with Some x => rank x | None => 0 end
  end.
Definition measure (st : stack) (inp : list item) : nat :=
  List.length inp * (2 * R + 2) + (R + 1) * List.length st + (R - top_rank st).

Lemma rank_le b : rank b <= R.
Proof.
  unfold rank, R. pose proof (fact_rank b) as H. set (r := rank_of b) in *. clearbody r.
  change max_rank with 20 in *. lia.
Qed.

Lemma top_rank_le st : top_rank st <= R.
Proof.
  destruct st as [|[s t] st]; cbn [top_rank]; [lia|].
  destruct (root t); [apply rank_le|lia].
Qed.

Definition la_of (e : lex_end) (inp : list item) : option N :=
  match inp with
  | i :: _ => option_map tk_code (kind_of (item_token i))
  | [] => match e with LEof => Some eof_code | _ => None end
  end.

Definition err_of (inp : list item) : step_out :=
  match inp with i :: _ => ErrTok i | [] => ErrEof end.

Lemma lr_step_la A e st inp la : la_of e inp = Some la ->
  lr_step A e st inp = lr_act A st inp la (err_of inp).
Proof.
  destruct inp as [|i r]; cbn [la_of lr_step err_of].
  - destruct e; [intros [= <-]; reflexivity|discriminate|discriminate].
  - destruct (kind_of (item_token i)); [intros [= <-]; reflexivity|discriminate].
Qed.

Lemma lr_step_nola A e st inp : la_of e inp = None ->
  lr_step A e st inp = match inp with i :: _ => ErrTok i | [] => LexPanic end.
Proof.
  destruct inp as [|i r]; cbn [la_of lr_step].
  - destruct e; [discriminate|reflexivity|reflexivity].
  - destruct (kind_of (item_token i)); [discriminate|reflexivity].
Qed.

Inductive step_spec (A : nt) (e : lex_end) (st : stack) (inp : list item) : step_out -> Prop :=
| SpCont : forall st' inp', wf (start_state A) st' -> sy st' ++ inp' = sy st ++ inp ->
    measure st' inp' < measure st inp -> step_spec A e st inp (Cont st' inp')
| SpDone : forall t, valid (BN A) t -> sy st = yield t -> inp = [] -> e = LEof ->
    step_spec A e st inp (Done t)
| SpErrTok : forall i r, inp = i :: r -> step_spec A e st inp (ErrTok i)
| SpErrEof : inp = [] -> e = LEof -> step_spec A e st inp ErrEof
| SpPanic : inp = [] -> e <> LEof -> step_spec A e st inp LexPanic.

Lemma forall2_len {X Y} (P : X -> Y -> Prop) l l' : Forall2 P l l' -> List.length l = List.length l'.
Proof. induction 1; cbn; congruence. Qed.

Lemma lr_step_spec A e st inp : wf (start_state A) st -> step_spec A e st inp (lr_step A e st inp).
Proof.
  intro Hw. pose proof (wf_top_valid _ _ Hw) as Hid.
  destruct (la_of e inp) as [la|] eqn:Hla.
  2:{ rewrite (lr_step_nola _ _ _ _ Hla). destruct inp as [|i r].
      - constructor; [reflexivity|]. intros ->. discriminate.
      - econstructor; reflexivity. }
  rewrite (lr_step_la _ _ _ _ _ Hla). unfold lr_act.
  destruct (action_at (top (start_state A) st) la) as [[s|b j]|] eqn:Ea.
  - (* shift *)
    destruct inp as [|i r].
    + exfalso. cbn in Hla. destruct e; try discriminate. injection Hla as <-.
      eapply no_shift_eof; eassumption.
    + cbn in Hla. destruct (kind_of (item_token i)) as [k|] eqn:Ek; [|discriminate].
      injection Hla as <-. constructor.
      * econstructor; [exact Hw|constructor; exact Ek|]. cbn [trans]. rewrite Ea. reflexivity.
      * cbn [sy yield]. rewrite <- app_assoc. reflexivity.
      * unfold measure. cbn [List.length]. pose proof (top_rank_le st). 
        cbn [top_rank root]. rewrite Ek. cbn [option_map]. 
        pose proof (rank_le (BT k)). nia.
  - (* reduce *)
    destruct (fact_reduce _ _ _ _ Hid Ea) as (rhs & Hr & Hc & Heof).
    rewrite Hr.
    destruct (pop_full A b j rhs st Hr Hw Hc) as (ts & st' & Hp & Hf & Hw' & Hc0 & Hsy & Hlen).
    rewrite Hp.
    destruct (rhs_of_in _ _ _ Hr) as (f & Hfin & Hnth & Hfr).
    destruct (fact_rhs b f Hfin) as (y & r & Hyr & Hfirst & Hrank & Hns).
    pose proof (wf_top_valid _ _ Hw') as Hid'.
    destruct (fact_base _ _ _ Hid' Hc0) as [(B & HB & Hs)|[Hnst Hg]].
    + subst b. destruct (base_start _ _ _ _ Hw' Hc0) as [-> ->]. rewrite bsym_eqb_refl.
      assert (Hrhs : rhs = [BN B]).
      { unfold rhs_of in Hr. cbn [fprods] in Hr.
        destruct j as [|j]; [cbn in Hr; congruence|]. destruct j; discriminate. }
      clear Hfr Hyr Hfirst Hrank Hns. subst rhs. inversion Hf as [|? t0 ? ts0 Hv Hf' E1 E2]; subst.
      inversion Hf'; subst.
      specialize (Heof eq_refl). subst la. 
      assert (inp = [] /\ e = LEof) as [-> ->].
      { destruct inp as [|i r']; cbn in Hla.
        - destruct e; try discriminate. auto.
        - destruct (kind_of (item_token i)) as [k|]; [|discriminate].
          injection Hla as Hla. pose proof (tk_code_63 k). unfold eof_code in Hla. lia. }
      constructor; auto. rewrite Hsy. cbn. rewrite app_nil_r. reflexivity.
    + destruct (bsym_eqb b (BS A)) eqn:Eb.
      { apply bsym_eqb_eq in Eb. subst b. discriminate. }
      destruct (goto_at (top (start_state A) st') b) as [s|] eqn:Eg; [|congruence].
      constructor.
      * econstructor; [exact Hw'| |].
        -- econstructor; eassumption.
        -- destruct b; [destruct Hfin|exact Eg|exact Eg|exact Eg].
      * cbn [sy yield]. rewrite Hsy, <- !app_assoc. reflexivity.
      * unfold measure. rewrite Hlen. cbn [List.length top_rank root].
        subst rhs. rewrite Hyr in *. pose proof (rank_le b).
        destruct r as [|z r].
        -- destruct (Hrank eq_refl) as [Hx|Hx]; [congruence|].
           assert (rank y < rank b) as Hlt by (unfold rank; lia).
           assert (top_rank st = rank y) as ->.
           { destruct st as [|[s1 t1] st1]; [cbn in Hlen; lia|].
             cbn [rev app pop] in Hp. cbn [top_rank].
             destruct (root t1) as [b1|]; [|discriminate].
             destruct (bsym_eqb b1 y) eqn:E1; [|discriminate].
             apply bsym_eqb_eq in E1. subst. reflexivity. }
           cbn [List.length]. lia.
        -- pose proof (top_rank_le st). cbn [List.length]. nia.
  - destruct inp as [|i r]; cbn [err_of].
    + constructor; [reflexivity|]. cbn in Hla. destruct e; try discriminate. reflexivity.
    + econstructor; reflexivity.
Qed.

(** *** Runs *)
Inductive run_spec (A : nt) (e : lex_end) (all : list item) : run_out -> Prop :=
| RsDone : forall t, valid (BN A) t -> yield t = all -> e = LEof -> run_spec A e all (RDone t)
| RsErrTok : forall st i r, wf (start_state A) st -> all = sy st ++ i :: r ->
    lr_step A e st (i :: r) = ErrTok i -> run_spec A e all (RErrTok i)
| RsErrEof : forall st, wf (start_state A) st -> all = sy st -> e = LEof ->
    lr_step A e st [] = ErrEof -> run_spec A e all RErrEof
| RsPanic : forall st, wf (start_state A) st -> all = sy st -> e <> LEof -> run_spec A e all RLexPanic.

Lemma lr_run_spec A e fuel : forall st inp,
  wf (start_state A) st -> measure st inp < fuel ->
  run_spec A e (sy st ++ inp) (lr_run fuel A e st inp).
Proof.
  induction fuel as [|f IH]; intros st inp Hw Hm; [lia|].
  cbn [lr_run]. pose proof (lr_step_spec A e st inp Hw) as Hs.
  destruct (lr_step A e st inp) as [st' inp'|t|i| | |] eqn:E; inversion Hs; subst.
  - match goal with H : _ ++ inp' = _ |- _ => rewrite <- H end. apply IH; [assumption|]. lia.
  - rewrite app_nil_r. constructor; congruence.
  - econstructor; [exact Hw|reflexivity|exact E].
  - econstructor; [exact Hw|apply app_nil_r|reflexivity|exact E].
  - rewrite app_nil_r. econstructor; [exact Hw|reflexivity|assumption].
Qed.

Lemma lr_fuel_enough inp : measure [] inp < lr_fuel inp.
Proof. unfold measure, lr_fuel, R. cbn [List.length top_rank]. lia. Qed.

Lemma lr_run_spec0 A e inp : run_spec A e inp (lr_run (lr_fuel inp) A e [] inp).
Proof. apply (lr_run_spec A e _ [] inp); [constructor|apply lr_fuel_enough]. Qed.

(** *** Completeness *)
Inductive steps (A : nt) (e : lex_end) : stack -> list item -> stack -> list item -> Prop :=
| steps_refl : forall st inp, steps A e st inp st inp
| steps_cons : forall st inp st1 inp1 st2 inp2,
    lr_step A e st inp = Cont st1 inp1 -> steps A e st1 inp1 st2 inp2 -> steps A e st inp st2 inp2.

Lemma steps_trans A e a b c d f g : steps A e a b c d -> steps A e c d f g -> steps A e a b f g.
Proof. induction 1; intros; [assumption|econstructor; eauto]. Qed.
Lemma steps_one A e a b c d : lr_step A e a b = Cont c d -> steps A e a b c d.
Proof. intro H. econstructor; [exact H|constructor]. Qed.

Fixpoint tree_rect' (P : tree -> Prop) (Hl : forall i, P (Leaf i))
  (Hn : forall b j ts, Forall P ts -> P (Node b j ts)) (t : tree) : P t :=
  match t with
  | Leaf i => Hl i
  | Node b j ts => Hn b j ts ((fix go ts : Forall P ts := match ts with
                                            | [] => Forall_nil P
                                            | t :: r => Forall_cons t (tree_rect' P Hl Hn t) (go r)
                                            end) ts)
  end.

(** The first token of a tree is in the FIRST set of its root. *)
Lemma yield_first t : forall x, valid x t ->
  exists i r k, yield t = i :: r /\ kind_of (item_token i) = Some k
    /\ N.testbit (first_of x) (tk_code k) = true.
Proof.
  induction t as [i|b j ts IH] using tree_rect'; intros x Hv; inversion Hv as [k i' Hk|b' j' rhs ts' Hr Hf]; subst.
  - exists i, [], k. cbn. split; [reflexivity|]. split; [assumption|]. apply fact_first_term.
  - destruct (rhs_of_in _ _ _ Hr) as (f & Hfin & _ & <-).
    destruct (fact_rhs _ _ Hfin) as (y & r & Hyr & Hsub & _). rewrite Hyr in Hf.
    inversion Hf as [|? t0 ? ts0 Hv0 Hf0]; subst. inversion IH as [|? ? IH0 _]; subst.
    destruct (IH0 _ Hv0) as (i & r0 & k & Hy & Hk & Hb).
    exists i, (r0 ++ flat_map yield ts0), k. cbn [yield flat_map]. rewrite Hy.
    split; [reflexivity|]. split; [exact Hk|]. apply Hsub, Hb.
Qed.

Lemma yield_nonempty x t : valid x t -> yield t <> [].
Proof. intro H. destruct (yield_first t x H) as (i & r & k & -> & _). discriminate. Qed.

Lemma yields_la e x t ts rest : valid x t ->
  exists k, la_of e (flat_map yield (t :: ts) ++ rest) = Some (tk_code k)
    /\ N.testbit (first_of x) (tk_code k) = true.
Proof.
  intro H. destruct (yield_first t x H) as (i & r & k & Hy & Hk & Hb).
  exists k. cbn [flat_map]. rewrite Hy. cbn. rewrite Hk. auto.
Qed.

Lemma la_of_lt e inp a : la_of e inp = Some a -> (a < 64)%N.
Proof.
  destruct inp as [|i r]; cbn.
  - destruct e; [intros [= <-]; reflexivity|discriminate|discriminate].
  - destruct (kind_of (item_token i)) as [k|]; [|discriminate]. intros [= <-].
    pose proof (tk_code_63 k). lia.
Qed.

(** push the trees of a right hand side, one transition each *)
Inductive pushed (s0 : N) : stack -> list bsym -> list tree -> stack -> Prop :=
| pushed_nil : forall st, pushed s0 st [] [] st
| pushed_snoc : forall st xs ts st' x t s, pushed s0 st xs ts st' ->
    root t = Some x -> pushed s0 st (xs ++ [x]) (ts ++ [t]) ((s, t) :: st').

Lemma pushed_pop s0 st xs ts st' acc : pushed s0 st xs ts st' ->
  pop (rev xs) st' acc = Some (ts ++ acc, st).
Proof.
  intro H. revert acc. induction H as [|st xs ts st' x t s H IH Hr]; intro acc; [reflexivity|].
  rewrite rev_app_distr. cbn [rev app pop]. rewrite Hr, bsym_eqb_refl, IH, <- app_assoc. reflexivity.
Qed.

Lemma complete_tree A e t : forall x, valid x t ->
  forall st b j d m rhs rest a,
  valid_id (top (start_state A) st) ->
  In (b, j, d, m) (items_at (top (start_state A) st)) ->
  rhs_of b j = Some rhs -> nth_error rhs d = Some x ->
  la_of e rest = Some a -> N.testbit (follow rhs d m) a = true ->
  exists s, trans (top (start_state A) st) x = Some s
    /\ steps A e st (yield t ++ rest) ((s, t) :: st) rest.
Proof.
  induction t as [i|b0 j0 ts IH] using tree_rect'; intros x Hv st b j d m rhs rest a Hid Hin Hr Hx Hla Ha;
    inversion Hv as [k i' Hk|b' j' rhs0 ts' Hr0 Hf]; subst.
  - destruct (fact_advance _ _ _ _ _ _ _ Hid Hin Hr Hx) as (s & m' & Ht & _).
    exists s. split; [exact Ht|]. apply steps_one. cbn [yield app]. 
    rewrite (lr_step_la A e st (i :: rest) (tk_code k)) by (cbn; rewrite Hk; reflexivity).
    unfold lr_act. cbn [trans] in Ht.
    destruct (action_at (top (start_state A) st) (tk_code k)) as [[s'|]|]; try discriminate.
    injection Ht as ->. reflexivity.
  - rename b0 into x. destruct (rhs_of_in _ _ _ Hr0) as (f & Hfin & Hnth & Hfr). clear Hfr.
    assert (Hterm : is_terminal x = false) by (destruct x; [destruct Hfin|reflexivity..]).
    destruct (fact_closure _ _ _ _ _ _ _ j0 Hid Hin Hr Hx Hterm) as (m0 & Hin0 & Hsub0).
    { apply nth_error_Some. congruence. }
    assert (Hm0 : N.testbit m0 a = true) by (apply Hsub0, Ha).
    destruct (fact_advance _ _ _ _ _ _ _ Hid Hin Hr Hx) as (s & m' & Ht & _).
    exists s. split; [exact Ht|].
    (* process the children *)
    assert (Hkids : forall xs2 ts2, Forall2 valid xs2 ts2 -> Forall (fun t => forall x, valid x t ->
              forall st b j d m rhs rest a,
              valid_id (top (start_state A) st) ->
              In (b, j, d, m) (items_at (top (start_state A) st)) ->
              rhs_of b j = Some rhs -> nth_error rhs d = Some x ->
              la_of e rest = Some a -> N.testbit (follow rhs d m) a = true ->
              exists s, trans (top (start_state A) st) x = Some s
                /\ steps A e st (yield t ++ rest) ((s, t) :: st) rest) ts2 ->
            forall xs1 ts1 st1 m1, rhs0 = xs1 ++ xs2 ->
              pushed (start_state A) st xs1 ts1 st1 -> valid_id (top (start_state A) st1) ->
              In (x, j0, List.length xs1, m1) (items_at (top (start_state A) st1)) ->
              N.testbit m1 a = true ->
              exists st2 m2, pushed (start_state A) st rhs0 (ts1 ++ ts2) st2
                /\ valid_id (top (start_state A) st2)
                /\ In (x, j0, List.length rhs0, m2) (items_at (top (start_state A) st2))
                /\ N.testbit m2 a = true
                /\ steps A e st1 (flat_map yield ts2 ++ rest) st2 rest).
    { induction 1 as [|x2 t2 xs2 ts2 Hv2 Hf2 IHf]; intros IHts xs1 ts1 st1 m1 Hrhs Hp Hid1 Hin1 Hm1.
      - rewrite app_nil_r in Hrhs. subst xs1. exists st1, m1. rewrite app_nil_r.
        repeat split; auto. constructor.
      - inversion IHts as [|? ? IHt IHts']; subst.
        assert (Hx2 : nth_error (xs1 ++ x2 :: xs2) (List.length xs1) = Some x2).
        { rewrite nth_error_app2, PeanoNat.Nat.sub_diag by lia. reflexivity. }
        set (rest2 := flat_map yield ts2 ++ rest).
        assert (exists a2, la_of e rest2 = Some a2 /\
                  N.testbit (follow (xs1 ++ x2 :: xs2) (List.length xs1) m1) a2 = true) as (a2 & Hla2 & Ha2).
        { unfold follow. rewrite nth_error_app2 by lia.
          replace (S (List.length xs1) - List.length xs1) with 1 by lia.
          inversion Hf2 as [|x3 t3 xs3 ts3 Hv3 Hf3]; subst; cbn [nth_error].
          - exists a. split; [exact Hla|exact Hm1].
          - unfold rest2. destruct (yields_la e _ _ ts3 rest Hv3) as (k3 & Hk3 & Hb3). eauto. }
        destruct (IHt _ Hv2 st1 x j0 _ m1 _ rest2 a2 Hid1 Hin1 Hr0 Hx2 Hla2 Ha2) as (s2 & Ht2 & Hst2).
        destruct (fact_advance _ _ _ _ _ _ _ Hid1 Hin1 Hr0 Hx2) as (s2' & m2 & Ht2' & Hid2 & Hin2 & Hsub2).
        rewrite Ht2 in Ht2'. injection Ht2' as <-.
        destruct (IHf IHts' (xs1 ++ [x2]) (ts1 ++ [t2]) ((s2, t2) :: st1) m2) as (st3 & m3 & Hp3 & Hid3 & Hin3 & Hm3 & Hs3).
        + rewrite <- app_assoc. reflexivity.
        + constructor; [exact Hp|]. apply valid_root, Hv2.
        + exact Hid2.
        + cbn [top]. rewrite app_length. cbn [List.length].
          replace (List.length xs1 + 1) with (S (List.length xs1)) by lia. exact Hin2.
        + apply Hsub2, Hm1.
        + exists st3, m3. rewrite <- app_assoc in Hp3. cbn [app] in Hp3.
          repeat split; auto. cbn [flat_map]. rewrite <- app_assoc.
          eapply steps_trans; [exact Hst2|exact Hs3]. }
    destruct (Hkids rhs0 ts Hf IH [] [] st m0 eq_refl (pushed_nil _ _) Hid Hin0 Hm0)
      as (st2 & m2 & Hp2 & Hid2 & Hin2 & Hm2 & Hs2).
    eapply steps_trans; [exact Hs2|]. apply steps_one.
    rewrite (lr_step_la _ _ _ _ _ Hla). unfold lr_act.
    rewrite (fact_complete _ _ _ _ _ _ Hid2 Hr0 Hin2 Hm2 (la_of_lt _ _ _ Hla)), Hr0.
    rewrite (pushed_pop _ _ _ _ _ _ Hp2), app_nil_r. cbn [app].
    destruct (rhs_of_in _ _ _ Hr) as (fb & Hfbin & _ & Hfb).
    destruct (fact_rhs _ _ Hfbin) as (y1 & r1 & Hyr1 & Hy1 & Hy2 & Hns).
    assert (Hxs : is_start x = false).
    { apply Hns. rewrite Hfb. eapply nth_error_In, Hx. }
    destruct (bsym_eqb x (BS A)) eqn:Eb.
    { apply bsym_eqb_eq in Eb. subst x. discriminate. }
    assert (trans (top (start_state A) st) x = goto_at (top (start_state A) st) x) as Htg.
    { destruct x; [destruct Hfin|reflexivity..]. }
    rewrite <- Htg, Ht. reflexivity.
Qed.

Lemma run_steps A e st inp st' inp' : steps A e st inp st' inp' ->
  forall fuel out, lr_run fuel A e st inp = out -> out <> RFuel ->
  exists fuel', lr_run fuel' A e st' inp' = out.
Proof.
  induction 1 as [|st inp st1 inp1 st2 inp2 H Hs IH]; intros fuel out Ho Hn; [eauto|].
  destruct fuel as [|f]; cbn [lr_run] in Ho; [congruence|]. rewrite H in Ho. eauto.
Qed.

Lemma steps_complete A t : valid (BN A) t ->
  exists s, steps A LEof [] (yield t) [(s, t)] [] /\ lr_step A LEof [(s, t)] [] = Done t.
Proof.
  intro Hv. destruct (fact_start A) as (Hid & (m & Hin & Hm) & _).
  assert (Hr : rhs_of (BS A) 0 = Some [BN A]) by reflexivity.
  destruct (complete_tree A LEof t (BN A) Hv [] (BS A) 0 0 m [BN A] [] eof_code Hid Hin Hr eq_refl eq_refl Hm)
    as (s & Ht & Hs).
  rewrite app_nil_r in Hs. exists s. split; [exact Hs|].
  destruct (fact_advance _ _ _ _ _ _ _ Hid Hin Hr (eq_refl : nth_error [BN A] 0 = Some (BN A)))
    as (s' & m' & Ht' & Hid' & Hin' & Hsub). cbn [top] in Ht. rewrite Ht in Ht'. injection Ht' as <-.
  rewrite (lr_step_la A LEof _ [] eof_code eq_refl). unfold lr_act. cbn [top].
  rewrite (fact_complete s (BS A) 0 [BN A] m' eof_code Hid' Hr Hin' (Hsub _ Hm) eq_refl), Hr.
  cbn [rev app pop]. rewrite (valid_root _ _ Hv), !bsym_eqb_refl. reflexivity.
Qed.

Theorem lr_complete A t : valid (BN A) t ->
  lr_run (lr_fuel (yield t)) A LEof [] (yield t) = RDone t.
Proof.
  intro Hv. destruct (steps_complete A t Hv) as (s & Hs & Hd).
  pose proof (lr_run_spec0 A LEof (yield t)) as Hspec.
  destruct (run_steps _ _ _ _ _ _ Hs (lr_fuel (yield t)) _ eq_refl) as (f & Hf).
  { intro E. rewrite E in Hspec. inversion Hspec. }
  rewrite <- Hf. destruct f as [|f]; cbn [lr_run] in *.
  - exfalso. rewrite <- Hf in Hspec. inversion Hspec.
  - rewrite Hd. reflexivity.
Qed.

(** At most one parse tree. *)
Theorem lr_unambiguous A t1 t2 : valid (BN A) t1 -> valid (BN A) t2 -> yield t1 = yield t2 -> t1 = t2.
Proof.
  intros H1 H2 E. pose proof (lr_complete A t1 H1) as E1. pose proof (lr_complete A t2 H2) as E2.
  rewrite <- E, E1 in E2. congruence.
Qed.

(** *** Errors *)
Lemma lr_step_local A e e' st i r r' :
  lr_step A e st (i :: r) = ErrTok i -> lr_step A e' st (i :: r') = ErrTok i.
Proof.
  cbn [lr_step]. destruct (kind_of (item_token i)) as [k|]; [|reflexivity].
  unfold lr_act. destruct (action_at (top (start_state A) st) (tk_code k)) as [[s|b j]|]; [discriminate| |reflexivity].
  destruct (rhs_of b j); [|discriminate]. destruct (pop (rev l) st []) as [[ts st']|]; [|discriminate].
  destruct (bsym_eqb b (BS A)).
  - destruct ts as [|? [|]]; try discriminate. destruct st'; discriminate.
  - destruct (goto_at (top (start_state A) st') b); discriminate.
Qed.

(** one step on an input [u ++ w] with [u] non empty does not look into [w] *)
Lemma lr_step_app A e e' st u w w' st' inp' : u <> [] ->
  lr_step A e st (u ++ w) = Cont st' inp' ->
  exists u', inp' = u' ++ w /\ lr_step A e' st (u ++ w') = Cont st' (u' ++ w').
Proof.
  destruct u as [|i u]; [congruence|]. intros _. cbn [app lr_step].
  destruct (kind_of (item_token i)) as [k|]; [|discriminate].
  unfold lr_act. destruct (action_at (top (start_state A) st) (tk_code k)) as [[s|b j]|]; [| |discriminate].
  - intros [= <- <-]. exists u. auto.
  - destruct (rhs_of b j); [|discriminate]. destruct (pop (rev l) st []) as [[ts st1]|]; [|discriminate].
    destruct (bsym_eqb b (BS A)).
    + destruct ts as [|? [|]]; try discriminate. destruct st1; discriminate.
    + destruct (goto_at (top (start_state A) st1) b); [|discriminate].
      intros [= <- <-]. exists (i :: u). auto.
Qed.

(** A run that stops at an offending token stops there for every continuation. *)
Lemma lr_run_err A e fuel : forall st inp i, wf (start_state A) st -> lr_run fuel A e st inp = RErrTok i ->
  exists u r, inp = u ++ i :: r /\
    forall e' r', exists st', steps A e' st (u ++ i :: r') st' (i :: r')
                    /\ lr_step A e' st' (i :: r') = ErrTok i
                    /\ wf (start_state A) st' /\ sy st' = sy st ++ u.
Proof.
  induction fuel as [|f IH]; intros st inp i Hw; cbn [lr_run]; [discriminate|].
  pose proof (lr_step_spec A e st inp Hw) as Hsp.
  destruct (lr_step A e st inp) as [st1 inp1|t|i1| | |] eqn:E; try discriminate.
  - inversion Hsp as [? ? Hw1 Hsy1 _| | | |]; subst. intro H.
    destruct (IH st1 inp1 i Hw1 H) as (u1 & r & -> & Hall).
    (* inp1 is a suffix of inp *)
    assert (exists u0, inp = u0 ++ u1 ++ i :: r /\ sy st1 = sy st ++ u0) as (u0 & -> & Hu0).
    { destruct inp as [|i0 inp0].
      - exfalso. assert (sy st1 ++ u1 ++ i :: r = sy st) by (rewrite Hsy1, app_nil_r; reflexivity).
        clear - E. cbn [lr_step] in E. destruct e; try discriminate. unfold lr_act in E.
        destruct (action_at (top (start_state A) st) eof_code) as [[|b j]|]; try discriminate.
        destruct (rhs_of b j); [|discriminate].
        destruct (pop (rev l) st []) as [[ts st2]|]; [|discriminate].
        destruct (bsym_eqb b (BS A)).
        + destruct ts as [|? [|]]; try discriminate. destruct st2; discriminate.
        + destruct (goto_at (top (start_state A) st2) b); [|discriminate].
          injection E as _ E. destruct u1; discriminate.
      - destruct (lr_step_app A e e st [i0] inp0 inp0 _ _ ltac:(discriminate) E) as (u' & Hu & _).
        cbn [app] in E. clear - Hsy1 E. cbn [lr_step] in E.
        destruct (kind_of (item_token i0)) as [k|]; [|discriminate]. unfold lr_act in E.
        destruct (action_at (top (start_state A) st) (tk_code k)) as [[s|b j]|]; [| |discriminate].
        + injection E as <- ->. exists [i0]. split; [reflexivity|]. reflexivity.
        + destruct (rhs_of b j); [|discriminate]. destruct (pop (rev l) st []) as [[ts st2]|]; [|discriminate].
          destruct (bsym_eqb b (BS A)).
          * destruct ts as [|? [|]]; try discriminate. destruct st2; discriminate.
          * destruct (goto_at (top (start_state A) st2) b); [|discriminate].
            injection E as <- E. exists []. rewrite app_nil_r. split; [exact E|].
            rewrite E in Hsy1. apply app_inv_tail in Hsy1. exact Hsy1. }
    exists (u0 ++ u1), r. split; [rewrite <- app_assoc; reflexivity|].
    intros e' r'. destruct (Hall e' r') as (st' & Hst & Herr & Hw' & Hsy').
    exists st'. split; [|split; [exact Herr|split; [exact Hw'|]]].
    + replace (u0 ++ u1 ++ i :: r) with ((u0 ++ u1 ++ [i]) ++ r) in E
        by (rewrite <- !app_assoc; reflexivity).
      destruct (lr_step_app A e e' st (u0 ++ u1 ++ [i]) r r' _ _ ltac:(destruct u0; [destruct u1|]; discriminate) E)
        as (u' & Hu' & Hstep).
      replace ((u0 ++ u1) ++ i :: r') with ((u0 ++ u1 ++ [i]) ++ r') by (rewrite <- !app_assoc; reflexivity).
      econstructor; [exact Hstep|].
      assert (u' = u1 ++ [i]) as ->.
      { apply app_inv_tail with (l := r). rewrite <- app_assoc. symmetry. exact Hu'. }
      rewrite <- app_assoc. exact Hst.
    + rewrite Hsy', Hu0, <- app_assoc. reflexivity.
  - intros [= <-]. inversion Hsp as [| |i2 r2 Hi| |]; subst. exists [], r2. split; [reflexivity|].
    intros e' r'. exists st. cbn [app]. split; [constructor|]. split; [eapply lr_step_local; eassumption|].
    split; [exact Hw|]. rewrite app_nil_r. reflexivity.
Qed.

Lemma steps_det_err A e st inp st1 inp1 st2 inp2 i t :
  steps A e st inp st1 inp1 -> lr_step A e st1 inp1 = ErrTok i ->
  steps A e st inp st2 inp2 -> lr_step A e st2 inp2 = Done t -> False.
Proof.
  intros H1 E1 H2 E2. revert st2 inp2 H2 E2.
  induction H1 as [|st inp sta inpa stb inpb Ha Hs IH]; intros st2 inp2 H2 E2.
  - destruct H2 as [|? ? ? ? ? ? Hb Hs2]; congruence.
  - destruct H2 as [|? ? ? ? ? ? Hb Hs2]; [rewrite E2 in Ha; discriminate|].
    rewrite Ha in Hb. injection Hb as <- <-. eapply IH; eassumption.
Qed.

Theorem lr_error_rejects A e inp i : lr_run (lr_fuel inp) A e [] inp = RErrTok i ->
  exists u r, inp = u ++ i :: r /\
    forall r' t, valid (BN A) t -> yield t <> u ++ i :: r'.
Proof.
  intro H. destruct (lr_run_err A e _ [] inp i (wf_nil _) H) as (u & r & -> & Hall).
  exists u, r. split; [reflexivity|]. intros r' t Hv Hy.
  destruct (steps_complete A t Hv) as (s & Hs & Hd).
  destruct (Hall LEof r') as (st' & Hst & Herr & _). rewrite Hy in Hs.
  exact (steps_det_err _ _ _ _ _ _ _ _ _ _ Hst Herr Hs Hd).
Qed.

(** *** Productivity and the viable prefix property *)
Definition witness_token (k : tk) : token :=
  match k with
  | KPlus => TPlus | KAsterisk => TAsterisk | KSemicolon => TSemicolon | KColon => TColon
  | KDot => TDot | KPipe => TPipe | KOpenBracket => TOpenBracket | KCloseBracket => TCloseBracket
  | KOpenParen => TOpenParen | KCloseParen => TCloseParen | KOpenBrace => TOpenBrace
  | KCloseBrace => TCloseBrace | KComma => TComma | KDoubleArrow => TDoubleArrow
  | KArrow => TArrow | KEquals => TEquals | KAmpersand => TAmpersand | KLeftArrow => TLeftArrow
  | KColonEquals => TColonEquals | KAt => TAt | KMinus => TMinus | KUnderscore => TUnderscore
  | KForall => TForall | KBuiltin => TBuiltin | KLibrary => TLibrary | KImport => TImport
  | KLet => TLet | KIn => TIn | KMatch => TMatch | KWith => TWith | KEnd => TEnd | KFun => TFun
  | KTfun => TTfun | KContract => TContract | KTransition => TTransition | KSend => TSend
  | KEvent => TEvent | KEventType => TEventType | KField => TField | KAccept => TAccept
  | KExists => TExists | KDelete => TDelete | KThrow => TThrow | KMap => TMap
  | KScillaVersion => TScillaVersion | KType => TType | KOf => TOf | KAs => TAs
  | KProcedure => TProcedure | KEmp => TEmp | KByStr => TByStr
  | KByStrWithSize => TByStrWithSize (lit "ByStr20") | KNumber => TNumber (lit "0")
  | KHexNumber => THexNumber (lit "0x00") | KStringLiteral => TStringLiteral (lit """""")
  | KIdentifier => TIdentifier (lit "x") | KSpecialIdentifier => TSpecialIdentifier (lit "_x")
  | KCustomIdentifier => TCustomIdentifier (lit "X") | KTemplateIdentifier => TTemplateIdentifier (lit "'A")
  end.
Lemma witness_kind k : kind_of (witness_token k) = Some k.
Proof. destruct k; reflexivity. Qed.
Definition witness_item (k : tk) : item := (start_position, witness_token k, start_position).

Lemma productive_depth n : forall b, (depth_of b < N.of_nat n)%N -> is_start b = false -> exists t, valid b t.
Proof.
  induction n as [|n IH]; intros b Hd Hs; [lia|].
  destruct (is_terminal b) eqn:Et.
  { destruct b as [k| | |]; try discriminate. exists (Leaf (witness_item k)).
    constructor. apply witness_kind. }
  destruct checks as (_ & _ & _ & Hc). specialize (Hc b). unfold check_depth in Hc.
  rewrite Et, Hs in Hc. cbn [orb] in Hc. rewrite existsb_exists in Hc.
  destruct Hc as (f & Hin & Hf). rewrite forallb_forall in Hf.
  destruct (fact_rhs _ _ Hin) as (y1 & r1 & Hyr1 & Hy1 & Hy2 & Hns).
  destruct (In_nth_error _ _ Hin) as (j & Hj).
  assert (exists ts, Forall2 valid (f_rhs f) ts) as (ts & Hts).
  { revert Hf Hns. generalize (f_rhs f). induction l as [|y l IHl]; intros Hf Hns; [exists []; constructor|].
    destruct IHl as (ts & Hts); [intros; apply Hf; right; auto|intros; apply Hns; right; auto|].
    destruct (IH y) as (t & Ht).
    - specialize (Hf y (or_introl eq_refl)). apply N.ltb_lt in Hf. lia.
    - apply Hns; left; reflexivity.
    - exists (t :: ts). constructor; auto. }
  exists (Node b j ts). econstructor; [|exact Hts]. unfold rhs_of. rewrite Hj. reflexivity.
Qed.

Lemma productive b : exists t, valid b t.
Proof.
  assert (H : forall b, is_start b = false -> exists t, valid b t).
  { intros b' Hb. apply (productive_depth (N.to_nat (N.succ (depth_of b')))); [lia|exact Hb]. }
  destruct (is_start b) eqn:E; [|auto].
  destruct b as [| | |A]; try discriminate. destruct (H (BN A) eq_refl) as (t & Ht).
  exists (Node (BS A) 0 [t]). econstructor; [reflexivity|]. constructor; [exact Ht|constructor].
Qed.

Lemma productive_list l : exists ts, Forall2 valid l ts.
Proof.
  induction l as [|b l (ts & IH)]; [exists []; constructor|].
  destruct (productive b) as (t & Ht). exists (t :: ts). constructor; auto.
Qed.

(** A tree whose yield starts with what is on the stack, followed by a given
    tree for the symbol whose item is at the start of its right hand side. *)
Lemma viable_base A : forall n st, List.length st < n -> wf (start_state A) st ->
  forall pre b j m post, items_at (top (start_state A) st) = pre ++ (b, j, 0, m) :: post ->
  forall t, valid b t -> exists t' w, valid (BN A) t' /\ yield t' = sy st ++ yield t ++ w.
Proof.
  induction n as [|n IHn]; intros st Hlen Hw; [lia|].
  intro pre. remember (List.length pre) as p eqn:Hp. revert pre Hp.
  induction p as [p IHp] using (well_founded_ind PeanoNat.Nat.lt_wf_0). intros pre Hp b j m post Hitems t Hv.
  pose proof (wf_top_valid _ _ Hw) as Hid.
  assert (Hin : In (b, j, 0, m) (items_at (top (start_state A) st))).
  { rewrite Hitems, in_app_iff. right; left; reflexivity. }
  destruct (is_start b) eqn:Es.
  - destruct b as [| | |B]; try discriminate.
    destruct (base_start A st j B Hw) as [-> ->]; [exists m; exact Hin|].
    inversion Hv as [|? j' rhs ts Hr Hf]; subst.
    assert (rhs = [BN B]).
    { unfold rhs_of in Hr. cbn [fprods] in Hr. destruct j' as [|[|]]; cbn in Hr; congruence. }
    subst rhs. inversion Hf as [|? t0 ? ? Hv0 Hf0]; subst. inversion Hf0; subst.
    exists t0, []. split; [exact Hv0|]. cbn. rewrite !app_nil_r. reflexivity.
  - destruct (check_state_parts _ Hid) as (stt & _ & _ & _ & _ & _ & Hj).
    destruct (check_just_earlier _ _ _ _ _ _ _ _ _ Hj Hitems Es)
      as (b' & j' & d' & m' & rhs & Hin' & Hr & Hx).
    rewrite app_nil_r, <- in_rev in Hin'.
    (* complete the production b' -> rhs with what is below, [t], and anything *)
    destruct (productive_list (skipn (S d') rhs)) as (ts2 & Hts2).
    assert (Hc : core (top (start_state A) st) b' j' d').
    { exists m'. rewrite Hitems, in_app_iff. left; exact Hin'. }
    destruct (pop_spec A b' j' rhs d' Hr st [] Hw Hc)
      as (ts1 & st' & _ & Hts1 & Hw' & Hc0 & Hsy & Hl & Hsk).
    assert (Hrhs : rhs = firstn d' rhs ++ b :: skipn (S d') rhs).
    { rewrite <- (firstn_skipn d' rhs) at 1. f_equal.
      clear - Hx. revert d' Hx. induction rhs as [|y rhs IH]; intros [|d'] Hx; try discriminate.
      - cbn in Hx. injection Hx as ->. reflexivity.
      - apply IH, Hx. }
    assert (Hv' : valid b' (Node b' j' (ts1 ++ t :: ts2))).
    { econstructor; [exact Hr|]. rewrite Hrhs. apply Forall2_app; [exact Hts1|]. constructor; auto. }
    assert (exists t' w, valid (BN A) t' /\ yield t' = sy st' ++ yield (Node b' j' (ts1 ++ t :: ts2)) ++ w)
      as (t' & w & Ht' & Hy).
    { destruct d' as [|d'].
      - cbn [skipn] in Hsk. subst st'.
        apply in_split in Hin'. destruct Hin' as (p1 & p2 & ->).
        rewrite <- app_assoc in Hitems. cbn [app] in Hitems.
        eapply (IHp (List.length p1)); [|reflexivity|exact Hitems|exact Hv'].
        subst p. rewrite app_length. cbn [List.length]. lia.
      - destruct Hc0 as (m0 & Hm0). apply in_split in Hm0. destruct Hm0 as (p1 & p2 & Hp12).
        eapply IHn; [|exact Hw'|exact Hp12|exact Hv']. lia. }
    exists t', (flat_map yield ts2 ++ w). split; [exact Ht'|].
    rewrite Hy, Hsy. cbn [yield]. rewrite flat_map_app. cbn [flat_map].
    rewrite <- !app_assoc. reflexivity.
Qed.

(** Whatever is on the stack can be completed to a phrase. *)
Lemma viable A st : wf (start_state A) st ->
  exists t w, valid (BN A) t /\ yield t = sy st ++ w.
Proof.
  intro Hw. pose proof (wf_top_valid _ _ Hw) as Hid.
  destruct (check_state_parts _ Hid) as (stt & _ & Hne & _).
  destruct (items_at (top (start_state A) st)) as [|[[[b j] d] m] l] eqn:E; [congruence|].
  assert (Hin : In (b, j, d, m) (items_at (top (start_state A) st))) by (rewrite E; left; reflexivity).
  destruct (item_rhs _ _ _ _ _ Hid Hin) as (rhs & Hr & Hd).
  destruct (pop_spec A b j rhs d Hr st [] Hw) as (ts1 & st' & _ & Hts1 & Hw' & (m0 & Hm0) & Hsy & _).
  { exists m. exact Hin. }
  destruct (productive_list (skipn d rhs)) as (ts2 & Hts2).
  apply in_split in Hm0. destruct Hm0 as (p1 & p2 & Hp12).
  destruct (viable_base A (S (List.length st')) st' (le_n _) Hw' p1 b j m0 p2 Hp12 (Node b j (ts1 ++ ts2)))
    as (t & w & Ht & Hy).
  { econstructor; [exact Hr|]. rewrite <- (firstn_skipn d rhs). apply Forall2_app; assumption. }
  exists t, (flat_map yield ts2 ++ w). split; [exact Ht|].
  rewrite Hy, Hsy. cbn [yield]. rewrite flat_map_app, <- !app_assoc. reflexivity.
Qed.
