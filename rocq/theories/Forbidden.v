(** Sequences of token kinds that occur in no phrase: a check on the tables,
    proved sound. *)
From Verif Require Import Chars Lexer Ast Grammar Cfg Tables Parser GrammarLink LrProofs.

(** Reading [ks] with [known] on top of an arbitrary stack always ends in an
    error. *)
Fixpoint stuck (fuel : nat) (known : list N) (ks : list tk) : bool :=
  match fuel, known, ks with
  | S f, s :: _, k :: ks' =>
      match action_at s (tk_code k) with
      | None => true
      | Some (Shift s') => stuck f (s' :: known) ks'
      | Some (Reduce b j) =>
          match rhs_of b j with
          | None => true
          | Some rhs =>
              match skipn (List.length rhs) known with
              | [] => false
              | s0 :: known' =>
                  match b with
                  | BS _ => false
                  | _ => match goto_at s0 b with
                         | Some s1 => stuck f (s1 :: s0 :: known') ks
                         | None => true
                         end
                  end
              end
          end
      end
  | _, _, _ => false
  end.
(** The first kind is shifted in some state, the rest gets stuck. *)
Definition never (ks : list tk) : bool :=
  match ks with
  | [] => false
  | k :: r => forallb (fun n => match action_at (N.of_nat n) (tk_code k) with
                                | Some (Shift s) => stuck 60 [s; N.of_nat n] r
                                | _ => true
                                end) (seq 0 (List.length states))
  end.

Definition not_done (o : run_out) : Prop := match o with RDone _ => False | _ => True end.

Lemma pop_skipn rhs : forall st acc ts st', pop rhs st acc = Some (ts, st') ->
  st' = skipn (List.length rhs) st /\ (List.length rhs <= List.length st)%nat.
Proof.
  induction rhs as [|b r IH]; intros st acc ts st' H; cbn [pop] in H; [injection H as _ <-; split; [reflexivity|cbn; lia]|].
  destruct st as [|[s t] st]; [discriminate|]. destruct (root t); [|discriminate]. destruct (bsym_eqb b0 b); [|discriminate].
  cbn [List.length skipn]. destruct (IH _ _ _ _ H). split; [assumption|lia].
Qed.

(** All states of a stack, with the start state. *)
Definition all_states (s0 : N) (st : stack) : list N := map fst st ++ [s0].
Lemma top_hd s0 st s l : all_states s0 st = s :: l -> top s0 st = s.
Proof. destruct st as [|[s' t] st]; cbn; congruence. Qed.

Lemma stuck_sound fuel : forall known ks A e st below items r, stuck fuel known ks = true ->
  all_states (start_state A) st = known ++ below -> map (fun i => kind_of (item_token i)) items = map Some ks ->
  forall f, not_done (lr_run f A e st (items ++ r)).
Proof.
  induction fuel as [|fu IH]; intros known ks A e st below items r H Hst Hk f; [discriminate|].
  destruct known as [|s known]; [discriminate|]. destruct ks as [|k ks]; [discriminate|].
  destruct items as [|i items]; [discriminate|]. cbn [map] in Hk. injection Hk as Hi Hk.
  destruct f as [|f]; [exact I|]. cbn [lr_run app lr_step]. rewrite Hi. unfold lr_act.
  rewrite (top_hd _ _ _ _ Hst).
  cbn [stuck] in H. destruct (action_at s (tk_code k)) as [[s'|b j]|]; [| |exact I].
  - apply (IH (s' :: s :: known) ks A e _ below); [exact H| |exact Hk]. unfold all_states in *. cbn [map fst app]. rewrite Hst. reflexivity.
  - destruct (rhs_of b j) as [rhs|]; [|exact I].
    destruct (pop (rev rhs) st []) as [[ts st']|] eqn:Ep; [|exact I].
    apply pop_skipn in Ep. rewrite rev_length in Ep. destruct Ep as [Ep Hle].
    destruct (skipn (List.length rhs) (s :: known)) as [|s0 known'] eqn:Es; [discriminate|].
    assert (Hb : all_states (start_state A) st' = (s0 :: known') ++ below).
    { assert (E1 : all_states (start_state A) st' = skipn (List.length rhs) (all_states (start_state A) st)).
      { unfold all_states. rewrite Ep, skipn_app, <- skipn_map, map_length.
        replace (List.length rhs - List.length st)%nat with 0%nat by lia. reflexivity. }
      rewrite E1, Hst, <- Es, skipn_app.
      assert (Hl : (List.length rhs - List.length (s :: known) = 0)%nat).
      { assert (List.length (skipn (List.length rhs) (s :: known)) <> 0%nat) as Hn by (rewrite Es; discriminate).
        rewrite skipn_length in Hn. lia. }
      rewrite Hl. reflexivity. }
    assert (Eb : bsym_eqb b (BS A) = false).
    { destruct (bsym_eqb b (BS A)) eqn:Eb; [|reflexivity]. apply bsym_eqb_eq in Eb. subst b. discriminate. }
    rewrite Eb, (top_hd _ _ _ _ Hb). destruct (goto_at s0 b) as [s1|] eqn:Eg; [|exact I].
    change (i :: items ++ r) with ((i :: items) ++ r). apply (IH (s1 :: s0 :: known') (k :: ks) A e _ below (i :: items)).
    + destruct b; first [discriminate|exact H].
    + unfold all_states in *. cbn [map fst app]. rewrite Hb. reflexivity.
    + cbn [map]. rewrite Hi, Hk. reflexivity.
Qed.

Lemma step_cases A e st i r st' inp' : lr_step A e st (i :: r) = Cont st' inp' ->
  inp' = i :: r \/ exists s k, kind_of (item_token i) = Some k
    /\ action_at (top (start_state A) st) (tk_code k) = Some (Shift s) /\ st' = (s, Leaf i) :: st /\ inp' = r.
Proof.
  cbn [lr_step]. destruct (kind_of (item_token i)) as [k|] eqn:Ek; [|discriminate]. unfold lr_act.
  destruct (action_at (top (start_state A) st) (tk_code k)) as [[s|b j]|] eqn:Ea; [| |discriminate].
  - intros [= <- <-]. right. exists s, k. auto.
  - destruct (rhs_of b j) as [rhs|]; [|discriminate]. destruct (pop (rev rhs) st []) as [[ts st2]|]; [|discriminate].
    destruct (bsym_eqb b (BS A)); [destruct ts as [|? [|]]; [| |]; try discriminate; destruct st2; discriminate|].
    destruct (goto_at (top (start_state A) st2) b); [|discriminate]. intros [= _ <-]. left. reflexivity.
Qed.

Lemma never_run ks A e items r : never ks = true -> map (fun i => kind_of (item_token i)) items = map Some ks ->
  forall f st p, wf (start_state A) st -> not_done (lr_run f A e st (p ++ items ++ r)).
Proof.
  intros Hn Hk. destruct ks as [|k ks]; [discriminate|]. destruct items as [|i items]; [discriminate|].
  cbn [map] in Hk. injection Hk as Hi Hk. cbn [never] in Hn. rewrite forallb_forall in Hn.
  induction f as [|f IH]; intros st p Hw; [exact I|]. cbn [lr_run].
  assert (exists i0 r0, p ++ (i :: items) ++ r = i0 :: r0) as (i0 & r0 & E0) by (destruct p; cbn; eauto).
  pose proof (lr_step_spec A e st (p ++ (i :: items) ++ r) Hw) as Hs.
  destruct (lr_step A e st (p ++ (i :: items) ++ r)) as [st' inp'|t|x| | |] eqn:E; try exact I.
  - inversion Hs as [? ? Hw' _ _| | | |]; subst. rewrite E0 in E. apply step_cases in E. destruct E as [-> |(s & k0 & Hk0 & Ha & -> & ->)].
    + rewrite <- E0. apply IH, Hw'.
    + destruct p as [|i1 p].
      * cbn [app] in E0. injection E0 as <- <-. rewrite Hi in Hk0. injection Hk0 as <-.
        set (q := top (start_state A) st) in *. assert (Hq : In (N.to_nat q) (seq 0 (List.length states))).
        { apply in_seq. split; [lia|]. cbn [Nat.add]. apply nth_error_Some. unfold action_at, state_at in Ha.
          destruct (nth_error states (N.to_nat q)); discriminate. }
        specialize (Hn _ Hq). cbv beta in Hn. rewrite N2Nat.id, Ha in Hn.
        destruct (all_states (start_state A) st) as [|q' below] eqn:Eq; [unfold all_states in Eq; destruct st; discriminate|].
        pose proof (top_hd _ _ _ _ Eq) as Hq'. fold q in Hq'. subst q'.
        apply (stuck_sound 60 [s; q] ks A e _ below); [exact Hn| |exact Hk]. unfold all_states in *. cbn [map fst app]. rewrite Eq. reflexivity.
      * cbn [app] in E0. injection E0 as <- <-. apply (IH _ p), Hw'.
  - inversion Hs; subst. rewrite E0 in *. discriminate.
Qed.

(** No phrase, and no beginning of one, contains the sequence. *)
Theorem never_viable ks A p items : never ks = true -> map (fun i => kind_of (item_token i)) items = map Some ks ->
  ~ viable_prefix A (p ++ items).
Proof.
  intros Hn Hk (r & v & Hd). pose proof (never_run ks A LEof items r Hn Hk (lr_fuel (p ++ items ++ r)) [] p (wf_nil _)) as H.
  rewrite <- app_assoc in Hd. apply parse_complete in Hd. unfold parse in Hd.
  destruct (lr_run (lr_fuel (p ++ items ++ r)) A LEof [] (p ++ items ++ r)); try discriminate. exact H.
Qed.

(** On such a text the parser reports a token. *)
Theorem never_error ks A p items r : never ks = true -> map (fun i => kind_of (item_token i)) items = map Some ks ->
  exists i, parse A (p ++ items ++ r) LEof = PErrToken i.
Proof.
  intros Hn Hk. pose proof (never_viable ks A p items Hn Hk) as Hv.
  destruct (parse A (p ++ items ++ r) LEof) as [v|i| | |] eqn:E; [|eauto| | |].
  - exfalso. apply parse_sound in E. destruct E as [E _]. apply Hv. exists r, v. rewrite <- app_assoc. exact E.
  - exfalso. apply parse_error_eof in E. destruct E as (_ & E & _). rewrite app_assoc in E. apply viable_prefix_app in E. exact (Hv E).
  - exfalso. apply parse_panic in E. destruct E as (E & _). congruence.
  - exfalso. exact (parse_not_internal _ _ _ E).
Qed.

(** [Map K ,] and [ByStr20 with name] *)
Lemma never_map_comma : forallb (fun k => never [KMap; k; KComma]) [KCustomIdentifier; KByStrWithSize; KByStr; KEventType] = true.
Proof. vm_compute. reflexivity. Qed.
Lemma never_with_name : never [KByStrWithSize; KWith; KIdentifier] = true.
Proof. vm_compute. reflexivity. Qed.
