(** What passing the checks of LrCheck.v means, as propositions. *)
From Verif Require Import Chars Lexer Ast Grammar Cfg Tables Parser LrCheck.

Lemma in_all_bsyms b : In b all_bsyms.
Proof.
  unfold all_bsyms. rewrite !in_app_iff, !in_map_iff.
  destruct b as [k|A|[k|A]|A].
  - left. exists k. auto using in_all_tks.
  - right; left. exists A. auto using in_all_nts.
  - right; right; left. exists k. auto using in_all_tks.
  - right; right; right; left. exists A. auto using in_all_nts.
  - right; right; right; right. exists A. auto using in_all_nts.
Qed.

Definition valid_id (s : N) : Prop := (N.to_nat s < nstates)%nat.
Definition core (s : N) (b : bsym) (j d : nat) : Prop := exists m, In (b, j, d, m) (items_at s).

Definition trans (s : N) (x : bsym) : option N :=
  match x with
  | BT k => match action_at s (tk_code k) with Some (Shift s') => Some s' | _ => None end
  | _ => goto_at s x
  end.

Lemma in_state_ids s : valid_id s -> In s state_ids.
Proof.
  intro H. unfold state_ids. rewrite <- (N2Nat.id s). apply in_map.
  apply in_seq. unfold valid_id in H. lia.
Qed.

Lemma checks :
  (forall s, valid_id s -> check_state s = true) /\
  (forall A, check_start A = true) /\
  (forall b, check_sym b = true) /\
  (forall b, check_depth b = true).
Proof.
  split; [|split; [|split]].
  - intros s Hs. apply (proj1 (forallb_forall _ _) check_states_ok), in_state_ids, Hs.
  - intros A. apply (proj1 (forallb_forall _ _) check_starts_ok), in_all_nts.
  - intros b. apply (proj1 (forallb_forall _ _) check_syms_ok), in_all_bsyms.
  - intros b. apply (proj1 (forallb_forall _ _) check_depths_ok), in_all_bsyms.
Qed.

Lemma existsb_core b j d l :
  core_in b j d l = true <-> exists m, In (b, j, d, m) l.
Proof.
  unfold core_in. rewrite existsb_exists. split.
  - intros [[[[b' j'] d'] m] [Hin H]]. rewrite !andb_true_iff in H.
    destruct H as [[Hb Hj] Hd].
    apply bsym_eqb_eq in Hb. apply PeanoNat.Nat.eqb_eq in Hj, Hd. subst. eauto.
  - intros [m Hin]. exists (b, j, d, m). split; [exact Hin|].
    rewrite !andb_true_iff. repeat split; try apply PeanoNat.Nat.eqb_refl.
    apply bsym_eqb_eq; reflexivity.
Qed.

Lemma ldiff_sub m m' a : N.ldiff m m' = 0 -> N.testbit m a = true -> N.testbit m' a = true.
Proof.
  intros H Ha. destruct (N.testbit m' a) eqn:E; [reflexivity|].
  assert (N.testbit (N.ldiff m m') a = true) by (rewrite N.ldiff_spec, Ha, E; reflexivity).
  rewrite H, N.bits_0 in H0. discriminate.
Qed.

Lemma item_in_spec b j d m l :
  item_in b j d m l = true ->
  exists m', In (b, j, d, m') l /\ forall a, N.testbit m a = true -> N.testbit m' a = true.
Proof.
  unfold item_in. rewrite existsb_exists.
  intros [[[[b' j'] d'] m'] [Hin H]]. rewrite !andb_true_iff in H.
  destruct H as [[[Hb Hj] Hd] Hm].
  apply bsym_eqb_eq in Hb. apply PeanoNat.Nat.eqb_eq in Hj, Hd. apply N.eqb_eq in Hm. subst.
  exists m'. split; [exact Hin|]. intros a. apply ldiff_sub, Hm.
Qed.

Lemma check_state_parts s :
  valid_id s ->
  exists st, state_at s = Some st
    /\ items_at s <> []
    /\ (forall it, In it (items_at s) -> check_item st (items_at s) it = true)
    /\ (forall x, In x (st_actions st) -> check_action (items_at s) x = true)
    /\ (forall x, In x (st_gotos st) -> check_goto (items_at s) x = true)
    /\ check_just s st [] (items_at s) = true.
Proof.
  intro Hs. pose proof (proj1 checks s Hs) as H. unfold check_state in H.
  destruct (state_at s) as [st|]; [|discriminate].
  rewrite !andb_true_iff, !forallb_forall in H.
  destruct H as [[[[H1 H2] H3] H4] H5].
  exists st. repeat split; auto. intro E. rewrite E in H1. discriminate.
Qed.

Lemma assocN_in {A} k (l : list (N * A)) v : assocN k l = Some v -> In (k, v) l.
Proof.
  induction l as [|[k' v'] l IH]; cbn [assocN]; [discriminate|].
  destruct (k =? k') eqn:E.
  - apply N.eqb_eq in E. intros [= ->]. subst. left; reflexivity.
  - intro H. right. auto.
Qed.

Lemma in_la_codes a : a < 64 -> In a la_codes.
Proof.
  intro H. unfold la_codes. rewrite <- (N2Nat.id a). apply in_map. apply in_seq. lia.
Qed.

Lemma bsym_decode_code c b : bsym_decode c = Some b -> bsym_code b = c.
Proof. unfold bsym_decode. intro H. apply find_some in H. apply N.eqb_eq, H. Qed.

Lemma tk_decode_spec c k : tk_decode c = Some k -> tk_code k = c.
Proof.
  unfold tk_decode. intro H.
  assert (Hc : (N.to_nat c < List.length all_tks)%nat) by (apply nth_error_Some; congruence).
  assert (Hall : forallb (fun n => match nth_error all_tks n with
                                   | Some k => tk_code k =? N.of_nat n
                                   | None => true
                                   end) (seq 0 (List.length all_tks)) = true)
    by (vm_compute; reflexivity).
  rewrite forallb_forall in Hall. specialize (Hall (N.to_nat c)). rewrite H in Hall.
  rewrite N2Nat.id in Hall. apply N.eqb_eq, Hall, in_seq. lia.
Qed.

(** *** completeness facts *)
Lemma item_rhs s b j d m : valid_id s -> In (b, j, d, m) (items_at s) ->
  exists rhs, rhs_of b j = Some rhs /\ (d <= List.length rhs)%nat.
Proof.
  intros Hs Hin. destruct (check_state_parts s Hs) as (st & _ & _ & Hi & _).
  specialize (Hi _ Hin). unfold check_item in Hi.
  destruct (rhs_of b j) as [rhs|]; [|discriminate]. exists rhs. split; [reflexivity|].
  destruct (nth_error rhs d) eqn:E.
  - apply PeanoNat.Nat.lt_le_incl, nth_error_Some. congruence.
  - rewrite andb_true_iff in Hi. destruct Hi as [Hi _]. apply PeanoNat.Nat.eqb_eq in Hi. lia.
Qed.

Lemma fact_complete s b j rhs m a : valid_id s ->
  rhs_of b j = Some rhs -> In (b, j, List.length rhs, m) (items_at s) ->
  N.testbit m a = true -> a < 64 -> action_at s a = Some (Reduce b j).
Proof.
  intros Hs Hr Hin Ha Hlt. destruct (check_state_parts s Hs) as (st & Est & _ & Hi & _).
  specialize (Hi _ Hin). unfold check_item in Hi. rewrite Hr in Hi.
  rewrite (proj2 (nth_error_None rhs (List.length rhs)) (le_n _)) in Hi.
  rewrite andb_true_iff, forallb_forall in Hi. destruct Hi as [_ Hi].
  specialize (Hi a (in_la_codes a Hlt)). rewrite Ha in Hi. cbn [negb orb] in Hi.
  unfold action_at. rewrite Est.
  destruct (assocN a (st_actions st)) as [[|b' j']|]; try discriminate.
  rewrite andb_true_iff in Hi. destruct Hi as [Hb Hj].
  apply bsym_eqb_eq in Hb. apply PeanoNat.Nat.eqb_eq in Hj. subst. reflexivity.
Qed.

Lemma shift_target s a s' : valid_id s -> action_at s a = Some (Shift s') ->
  exists k, tk_code k = a /\ check_back (BT k) (items_at s) (items_at s') = true
            /\ valid_id s' /\ is_start_id s' = false.
Proof.
  intros Hs H. destruct (check_state_parts s Hs) as (st & Est & _ & _ & Ha & _).
  unfold action_at in H. rewrite Est in H. apply assocN_in in H. specialize (Ha _ H).
  cbn [check_action] in Ha. rewrite !andb_true_iff in Ha. destruct Ha as [[Ha Hn] Hst].
  destruct (tk_decode a) as [k|] eqn:E; [|discriminate].
  exists k. split; [apply tk_decode_spec, E|]. split; [exact Ha|].
  split; [apply PeanoNat.Nat.ltb_lt in Hn; exact Hn|]. apply negb_true_iff, Hst.
Qed.

Lemma goto_target s x s' : valid_id s -> goto_at s x = Some s' ->
  is_terminal x = false /\ check_back x (items_at s) (items_at s') = true
  /\ valid_id s' /\ is_start_id s' = false.
Proof.
  intros Hs H. destruct (check_state_parts s Hs) as (st & Est & _ & _ & _ & Hg & _).
  unfold goto_at in H. rewrite Est in H. apply assocN_in in H. specialize (Hg _ H).
  cbn [check_goto] in Hg. rewrite !andb_true_iff in Hg. destruct Hg as [[Hg Hn] Hst].
  destruct (bsym_decode (bsym_code x)) as [b|] eqn:E; [|discriminate].
  apply bsym_decode_code, bsym_code_inj in E. subst b.
  rewrite andb_true_iff in Hg. destruct Hg as [Ht Hb].
  split; [apply negb_true_iff, Ht|]. split; [exact Hb|].
  split; [apply PeanoNat.Nat.ltb_lt in Hn; exact Hn|]. apply negb_true_iff, Hst.
Qed.

Lemma trans_target s x s' : valid_id s -> trans s x = Some s' ->
  check_back x (items_at s) (items_at s') = true /\ valid_id s' /\ is_start_id s' = false.
Proof.
  intros Hs H. destruct x as [k|A|a|A]; cbn [trans] in H.
  - destruct (action_at s (tk_code k)) as [[s1|]|] eqn:E; try discriminate.
    injection H as <-. destruct (shift_target _ _ _ Hs E) as (k' & Hk & R).
    apply tk_code_inj in Hk. subst. exact R.
  - apply (goto_target _ _ _ Hs H).
  - apply (goto_target _ _ _ Hs H).
  - apply (goto_target _ _ _ Hs H).
Qed.

Lemma fact_advance s b j d m rhs x : valid_id s ->
  In (b, j, d, m) (items_at s) -> rhs_of b j = Some rhs -> nth_error rhs d = Some x ->
  exists s' m', trans s x = Some s' /\ valid_id s' /\ In (b, j, S d, m') (items_at s')
    /\ forall a, N.testbit m a = true -> N.testbit m' a = true.
Proof.
  intros Hs Hin Hr Hx. destruct (check_state_parts s Hs) as (st & Est & _ & Hi & _).
  specialize (Hi _ Hin). unfold check_item in Hi. rewrite Hr, Hx in Hi.
  assert (exists s', trans s x = Some s' /\ item_in b j (S d) m (items_at s') = true) as (s' & Ht & Hit).
  { destruct x as [k|A|a|A]; cbn [trans].
    - unfold action_at. rewrite Est. destruct (assocN (tk_code k) (st_actions st)) as [[s'|]|]; try discriminate.
      eauto.
    - unfold goto_at. rewrite Est. rewrite !andb_true_iff in Hi. destruct Hi as [[_ Hi] _].
      destruct (assocN (bsym_code (BN A)) (st_gotos st)); [eauto|discriminate].
    - unfold goto_at. rewrite Est. rewrite !andb_true_iff in Hi. destruct Hi as [[_ Hi] _].
      destruct (assocN (bsym_code (BP a)) (st_gotos st)); [eauto|discriminate].
    - cbn in Hi. discriminate. }
  apply item_in_spec in Hit. destruct Hit as (m' & Hin' & Hsub).
  exists s', m'. split; [exact Ht|]. split; [|auto].
  apply (trans_target _ _ _ Hs Ht).
Qed.

Lemma fact_closure s b j d m rhs x j' : valid_id s ->
  In (b, j, d, m) (items_at s) -> rhs_of b j = Some rhs -> nth_error rhs d = Some x ->
  is_terminal x = false -> (j' < List.length (fprods x))%nat ->
  exists m', In (x, j', 0%nat, m') (items_at s)
    /\ forall a, N.testbit (follow rhs d m) a = true -> N.testbit m' a = true.
Proof.
  intros Hs Hin Hr Hx Ht Hj. destruct (check_state_parts s Hs) as (st & Est & _ & Hi & _).
  specialize (Hi _ Hin). unfold check_item in Hi. rewrite Hr, Hx in Hi.
  assert (forallb (fun j' => item_in x j' 0 (follow rhs d m) (items_at s)) (seq 0 (List.length (fprods x))) = true) as Hf.
  { destruct x as [k|A|a|A]; try discriminate; rewrite !andb_true_iff in Hi; apply Hi. }
  rewrite forallb_forall in Hf. specialize (Hf j'). apply item_in_spec, Hf.
  apply in_seq. lia.
Qed.

Lemma fact_start A :
  valid_id (start_state A) /\
  (exists m, In (BS A, 0%nat, 0%nat, m) (items_at (start_state A)) /\ N.testbit m eof_code = true) /\
  (forall b j d, core (start_state A) b j d -> d = 0%nat).
Proof.
  destruct checks as (_ & H & _). specialize (H A). unfold check_start in H.
  rewrite !andb_true_iff, forallb_forall in H. destruct H as [[H1 H2] H3].
  split; [apply PeanoNat.Nat.ltb_lt in H1; exact H1|]. split.
  - apply item_in_spec in H2. destruct H2 as (m & Hin & Hsub). exists m. split; [exact Hin|].
    apply Hsub. reflexivity.
  - intros b j d [m Hin]. specialize (H3 _ Hin). cbn in H3. apply PeanoNat.Nat.eqb_eq, H3.
Qed.

(** *** safety facts *)
Lemma fact_back s x s' b j d : valid_id s -> trans s x = Some s' -> core s' b j (S d) ->
  exists rhs, rhs_of b j = Some rhs /\ nth_error rhs d = Some x /\ core s b j d.
Proof.
  intros Hs Ht [m Hin]. destruct (trans_target _ _ _ Hs Ht) as [Hb _].
  unfold check_back in Hb. rewrite forallb_forall in Hb. specialize (Hb _ Hin). cbn in Hb.
  rewrite andb_true_iff in Hb. destruct Hb as [Hb Hc].
  destruct (rhs_of b j) as [rhs|]; [|discriminate].
  destruct (nth_error rhs d) as [y|] eqn:E; [|discriminate].
  apply bsym_eqb_eq in Hb. subst y. exists rhs. split; [reflexivity|]. split; [exact E|].
  apply existsb_core, Hc.
Qed.

Lemma fact_reduce s a b j : valid_id s -> action_at s a = Some (Reduce b j) ->
  exists rhs, rhs_of b j = Some rhs /\ core s b j (List.length rhs)
    /\ (is_start b = true -> a = eof_code).
Proof.
  intros Hs H. destruct (check_state_parts s Hs) as (st & Est & _ & _ & Ha & _).
  unfold action_at in H. rewrite Est in H. apply assocN_in in H. specialize (Ha _ H).
  cbn [check_action] in Ha. rewrite andb_true_iff in Ha. destruct Ha as [Ha He].
  destruct (rhs_of b j) as [rhs|]; [|discriminate].
  exists rhs. split; [reflexivity|]. split; [apply existsb_core, Ha|].
  intro Hb. rewrite Hb in He. apply N.eqb_eq, He.
Qed.

Lemma check_just_spec s st todo seen b j m :
  check_just s st seen todo = true -> In (b, j, 0%nat, m) todo ->
  (exists A, b = BS A /\ s = start_state A) \/
  (is_start b = false /\ assocN (bsym_code b) (st_gotos st) <> None).
Proof.
  revert seen. induction todo as [|[[[b' j'] d'] m'] r IH]; intros seen H Hin; [destruct Hin|].
  cbn [check_just] in H. rewrite andb_true_iff in H. destruct H as [H1 H2].
  destruct Hin as [[= -> -> -> ->]|Hin]; [|eauto].
  destruct (is_start b) eqn:E.
  - destruct b as [| | |A]; try discriminate. left. exists A. split; [reflexivity|].
    apply N.eqb_eq in H1. auto.
  - right. split; [reflexivity|]. rewrite andb_true_iff in H1. destruct H1 as [H1 _].
    destruct (assocN (bsym_code b) (st_gotos st)); [discriminate|discriminate].
Qed.

Lemma fact_base s b j : valid_id s -> core s b j 0%nat ->
  (exists A, b = BS A /\ s = start_state A) \/ (is_start b = false /\ goto_at s b <> None).
Proof.
  intros Hs [m Hin]. destruct (check_state_parts s Hs) as (st & Est & _ & _ & _ & _ & Hj).
  unfold goto_at. rewrite Est. eapply check_just_spec; eassumption.
Qed.

Lemma start_id_spec A : is_start_id (start_state A) = true.
Proof.
  unfold is_start_id. rewrite existsb_exists. exists A. split; [apply in_all_nts|].
  apply N.eqb_refl.
Qed.

Lemma trans_not_start s x A : valid_id s -> trans s x = Some (start_state A) -> False.
Proof.
  intros Hs H. destruct (trans_target _ _ _ Hs H) as (_ & _ & Hn).
  rewrite start_id_spec in Hn. discriminate.
Qed.

Lemma no_shift_eof s s' : valid_id s -> action_at s eof_code <> Some (Shift s').
Proof.
  intros Hs H. destruct (shift_target _ _ _ Hs H) as (k & Hk & _).
  destruct k; discriminate Hk.
Qed.

Lemma start_state_inj A B : start_state A = start_state B -> A = B.
Proof. apply nt_code_inj. Qed.

(** Every closure item is justified by an item earlier in the list. *)
Lemma check_just_earlier s st todo seen pre b j m post :
  check_just s st seen todo = true -> todo = pre ++ (b, j, 0%nat, m) :: post ->
  is_start b = false ->
  exists b' j' d' m' rhs, In (b', j', d', m') (rev pre ++ seen) /\ rhs_of b' j' = Some rhs
    /\ nth_error rhs d' = Some b.
Proof.
  revert seen todo. induction pre as [|[[[b1 j1] d1] m1] pre IH]; intros seen todo H E Hb.
  - cbn [app] in E. subst todo. cbn [check_just] in H. rewrite Hb in H.
    rewrite !andb_true_iff, existsb_exists in H.
    destruct H as [[_ ([[[b' j'] d'] m'] & Hin & H)] _].
    destruct (rhs_of b' j') as [rhs|] eqn:Er; [|discriminate].
    destruct (nth_error rhs d') as [y|] eqn:Ey; [|discriminate].
    apply bsym_eqb_eq in H. subst y. exists b', j', d', m', rhs. cbn. auto.
  - cbn [app] in E. subst todo. cbn [check_just] in H. rewrite andb_true_iff in H.
    destruct H as [_ H].
    destruct (IH _ _ H eq_refl Hb) as (b' & j' & d' & m' & rhs & Hin & R).
    exists b', j', d', m', rhs. split; [|exact R].
    cbn [rev]. rewrite in_app_iff in *. cbn [In] in *. rewrite in_app_iff. cbn [In]. tauto.
Qed.

(** *** per symbol facts *)
Lemma fact_rhs b f : In f (fprods b) ->
  exists y r, f_rhs f = y :: r
    /\ (forall a, N.testbit (first_of y) a = true -> N.testbit (first_of b) a = true)
    /\ (r = [] -> is_start b = true \/ rank_of y < rank_of b)
    /\ (forall x, In x (f_rhs f) -> is_start x = false).
Proof.
  intro Hin. destruct checks as (_ & _ & H & _). specialize (H b). unfold check_sym in H.
  rewrite !andb_true_iff, forallb_forall in H. destruct H as [_ H]. specialize (H _ Hin).
  cbn beta in H. destruct (f_rhs f) as [|y r]; [discriminate|].
  rewrite !andb_true_iff in H. destruct H as [[H1 H2] H3].
  exists y, r. split; [reflexivity|]. split; [|split].
  - intro a. apply ldiff_sub. apply N.eqb_eq, H1.
  - intros ->. rewrite orb_true_iff in H2. destruct H2 as [H2|H2]; [left; exact H2|right].
    apply N.ltb_lt, H2.
  - rewrite forallb_forall in H3. intros x Hx. apply negb_true_iff, H3, Hx.
Qed.

Lemma fact_first_term k : N.testbit (first_of (BT k)) (tk_code k) = true.
Proof.
  destruct checks as (_ & _ & H & _). specialize (H (BT k)). unfold check_sym in H.
  rewrite !andb_true_iff in H. apply H.
Qed.

Lemma fact_rank b : rank_of b <= N.of_nat max_rank.
Proof.
  destruct checks as (_ & _ & H & _). specialize (H b). unfold check_sym in H.
  rewrite !andb_true_iff in H. destruct H as [[_ H] _]. apply N.leb_le, H.
Qed.

Lemma rhs_of_in b j rhs : rhs_of b j = Some rhs ->
  exists f, In f (fprods b) /\ nth_error (fprods b) j = Some f /\ f_rhs f = rhs.
Proof.
  unfold rhs_of. destruct (nth_error (fprods b) j) as [f|] eqn:E; [|discriminate].
  cbn [option_map]. intros [= <-]. exists f. split; [eapply nth_error_In, E|]. auto.
Qed.

Lemma tk_code_63 k : tk_code k < 63.
Proof. destruct k; reflexivity. Qed.
