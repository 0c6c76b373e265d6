(** C29: which failures of the emitter end the traversal. *)
From Verif Require Import Chars Lexer Ast Visitor Trace TraceFacts.
Local Open Scope nat_scope.

(** ** Specification *)

Definition is_builtin_event (e : event) : bool := match e with EvEmit _ (ABuiltinArguments _) => true | _ => false end.
(** After the calls [h] the visitor is among the arguments of a builtin. *)
Definition in_builtin (h : list event) : Prop :=
  exists h1 l h2, h = h1 ++ EvEmit Enter (ABuiltinArguments l) :: h2 /\
    forallb (fun e => negb (is_builtin_event e)) h2 = true.

(** A failure with message [msg] of the call [m n] made after the calls [h]
    that does not end the traversal. *)
Definition tolerated (h : list event) (m : mode) (n : anynode) (msg : str) : Prop :=
  (m = Enter /\ exists a, n = AAddressType a) \/ (in_builtin h /\ msg <> lit "Failure").

Section Abort.
  Context (dec : list event -> mode -> anynode -> result tr).
  Notation E := (recorder dec).

  (** All failed calls among [h] were tolerated. *)
  Definition only_tolerated (h : list event) : Prop :=
    forall h1 m n h2 msg, h = h1 ++ EvEmit m n :: h2 -> dec h1 m n = Err msg -> tolerated h1 m n msg.

  (** ** Proof *)
  Definition failed_after (h h' : list event) (msg : str) : Prop :=
    exists e m n k, h' = (h ++ e) ++ EvEmit m n :: repeat EvPop k /\ dec (h ++ e) m n = Err msg /\ only_tolerated (h ++ e).
  Definition safe {A} (c : M (list event) A) : Prop :=
    forall h, only_tolerated h ->
      match c h with
      | Ret (Ok _) h' => (exists e, h' = h ++ e) /\ only_tolerated h'
      | Ret (Err msg) h' => failed_after h h' msg
      | _ => True
      end.

  Lemma tol_snoc h ev : only_tolerated h ->
    (forall m n msg, ev = EvEmit m n -> dec h m n = Err msg -> tolerated h m n msg) -> only_tolerated (h ++ [ev]).
  Proof.
    intros Hh He h1 m n h2 msg Heq Hd.
    destruct (rev h2) as [|z r] eqn:Er.
    - assert (h2 = []) by (rewrite <- (rev_involutive h2), Er; reflexivity). subst h2.
      apply app_inj_tail in Heq. destruct Heq as [<- ->]. now apply (He m n msg).
    - assert (H2 : h2 = rev r ++ [z]) by (rewrite <- (rev_involutive h2), Er; reflexivity). subst h2.
      rewrite app_comm_cons, app_assoc in Heq. apply app_inj_tail in Heq. destruct Heq as [Heq _].
      exact (Hh h1 m n (rev r) msg Heq Hd).
  Qed.
  Lemma tol_push h a b : only_tolerated h -> only_tolerated (h ++ [EvPush a b]).
  Proof. intro H. apply tol_snoc; [exact H|discriminate]. Qed.
  Lemma tol_pop h : only_tolerated h -> only_tolerated (h ++ [EvPop]).
  Proof. intro H. apply tol_snoc; [exact H|discriminate]. Qed.
  Lemma tol_pops h k : only_tolerated h -> only_tolerated (h ++ repeat EvPop k).
  Proof.
    revert h. induction k as [|k IH]; intros h H; [now rewrite app_nil_r|].
    cbn [repeat]. replace (h ++ EvPop :: repeat EvPop k) with ((h ++ [EvPop]) ++ repeat EvPop k) by now rewrite <- app_assoc.
    apply IH. now apply tol_pop.
  Qed.

  Lemma failed_trans h e h' msg : failed_after (h ++ e) h' msg -> failed_after h h' msg.
  Proof. intros (e' & m & n & k & H1 & H2 & H3). exists (e ++ e'), m, n, k. rewrite app_assoc. auto. Qed.

  Lemma safe_ret {A} (a : A) : safe (ret a).
  Proof. intros h H. split; [exists []; symmetry; apply app_nil_r|exact H]. Qed.
  Lemma safe_panic {A} : safe (panic (A := A)).
  Proof. intros h H. exact I. Qed.
  Lemma safe_bind {A B} (c : M (list event) A) (k : A -> M (list event) B) : safe c -> (forall a, safe (k a)) -> safe (bind c k).
  Proof.
    intros Hc Hk h H. unfold bind, bind_res. specialize (Hc h H). destruct (c h) as [[a|msg] h'| |]; [|exact Hc|exact I|exact I].
    destruct Hc as [[e ->] H']. specialize (Hk a (h ++ e) H'). destruct (k a (h ++ e)) as [[b|msg] h'| |]; [| |exact I|exact I].
    - destruct Hk as [[e' ->] Hk]. split; [exists (e ++ e'); symmetry; apply app_assoc|exact Hk].
    - exact (failed_trans h e h' msg Hk).
  Qed.
  Lemma safe_push {A} (w : wm A) : safe (push_pos E w).
  Proof. intros h H. split; [eexists; reflexivity|now apply tol_push]. Qed.
  Lemma safe_vis {A} v (inj : A -> anynode) w : safe (v (inj (node w))) -> safe (visit_wm E v inj w).
  Proof.
    intros Hv h H. unfold visit_wm. cbn [push_source_position pop_source_position recorder].
    specialize (Hv _ (tol_push h (wm_start w) (wm_end w) H)).
    destruct (v (inj (node w)) _) as [[a|msg] h'| |]; [| |exact I|exact I].
    - destruct Hv as [[e ->] Hv]. split; [eexists; rewrite <- !app_assoc; reflexivity|now apply tol_pop].
    - apply failed_trans in Hv. destruct Hv as (e & m & n & k & -> & Hd & Ht). exists e, m, n, (S k).
      split; [|split; assumption]. rewrite <- app_assoc. cbn [app]. f_equal. f_equal.
      clear. induction k as [|k IH]; [reflexivity|]. cbn [repeat app] in *. now rewrite IH.
  Qed.
  Lemma safe_emit v m n : is_address n = false \/ m = Exit -> safe (emit E v m n).
  Proof.
    intros Ha h H. cbn [emit recorder]. destruct (dec h m n) as [t|msg] eqn:Ed.
    - split; [eexists; reflexivity|]. apply tol_snoc; [exact H|]. intros m' n' msg [= <- <-] Hd. congruence.
    - exists [], m, n, 0. rewrite app_nil_r. cbn [repeat]. auto.
  Qed.

  (** *** Below the arguments of a builtin *)
  Definition nb (e : event) : bool := negb (is_builtin_event e).
  Definition quiet {A} (c : M (list event) A) : Prop :=
    forall h r h', c h = Ret r h' -> exists e, h' = h ++ e /\ forallb nb e = true.
  Lemma quiet_ret {A} (a : A) : quiet (ret a).
  Proof. intros h r h' [= <- <-]. exists []. split; [symmetry; apply app_nil_r|reflexivity]. Qed.
  Lemma quiet_raise {A} msg : quiet (raise (A := A) msg).
  Proof. intros h r h' [= <- <-]. exists []. split; [symmetry; apply app_nil_r|reflexivity]. Qed.
  Lemma quiet_bind_res {A B} (c : M (list event) A) (k : result A -> M (list event) B) :
    quiet c -> (forall r, quiet (k r)) -> quiet (bind_res c k).
  Proof.
    intros Hc Hk h r h' H. unfold bind_res in H. destruct (c h) as [r1 h1| |] eqn:Ec; try discriminate H.
    destruct (Hc _ _ _ Ec) as [e1 [-> N1]]. destruct (Hk r1 _ _ _ H) as [e2 [-> N2]].
    exists (e1 ++ e2). split; [symmetry; apply app_assoc|]. now rewrite forallb_app, N1, N2.
  Qed.
  Lemma quiet_bind {A B} (c : M (list event) A) (k : A -> M (list event) B) : quiet c -> (forall a, quiet (k a)) -> quiet (bind c k).
  Proof. intros Hc Hk. apply quiet_bind_res; [exact Hc|]. intros [a|m]; [apply Hk|apply quiet_raise]. Qed.
  Lemma quiet_vis {A} v (inj : A -> anynode) w : quiet (v (inj (node w))) -> quiet (visit_wm E v inj w).
  Proof.
    intros Hv h r h' H. unfold visit_wm in H. cbn [push_source_position pop_source_position recorder] in H.
    destruct (v (inj (node w)) _) as [r1 h1| |] eqn:Ev; try discriminate H. injection H as <- <-.
    destruct (Hv _ _ _ Ev) as [e [-> N]]. exists (EvPush (wm_start w) (wm_end w) :: e ++ [EvPop]).
    split; [now rewrite <- !app_assoc|]. cbn [forallb nb is_builtin_event negb andb]. rewrite forallb_app, N. reflexivity.
  Qed.
  Definition small (n : anynode) : bool :=
    match n with AVariableIdentifier _ | ATypeNameIdentifier _ | AByteStr _ => true | _ => false end.
  Lemma quiet_visit fuel : forall n, small n = true -> quiet (visit E fuel n).
  Proof.
    induction fuel as [|fuel IH]; intros n Hs; [intros h r h' H; discriminate H|].
    assert (He : forall m, quiet (emit E (visit E fuel) m n)).
    { intros m h r h' H. cbn [emit recorder] in H. injection H as <- <-. exists [EvEmit m n]. split; [reflexivity|].
      destruct n; try discriminate Hs; reflexivity. }
    assert (Hk : quiet (children E (visit E fuel) n)).
    { destruct n; try discriminate Hs; destruct n; cbn [children]; try apply quiet_ret;
        (apply quiet_bind; [try apply quiet_vis; apply IH; reflexivity|intro; apply quiet_ret]). }
    destruct n; try discriminate Hs; cbn [visit visit_node]; unfold standard;
      (apply quiet_bind_res; [apply He|]; intros [[]|]; (apply quiet_bind; [first [exact Hk|apply quiet_ret|apply quiet_raise]|]);
       intros [[]|]; first [apply He|apply quiet_ret]).
  Qed.

  Lemma in_builtin_app h e : in_builtin h -> forallb nb e = true -> in_builtin (h ++ e).
  Proof.
    intros (h1 & l & h2 & -> & N) Ne. exists h1, l, (h2 ++ e). split; [now rewrite <- app_assoc|].
    rewrite forallb_app. apply andb_true_intro. split; [exact N|exact Ne].
  Qed.

  Lemma safe_find v l : (forall w, safe (v (AVariableIdentifier w))) -> (forall w, quiet (v (AVariableIdentifier w))) ->
    forall h, in_builtin h -> only_tolerated h ->
      match visit_find E v AVariableIdentifier (lit "Failure") l h with
      | Ret (Ok _) h' => (exists e, h' = h ++ e) /\ only_tolerated h'
      | Ret (Err msg) h' => failed_after h h' msg
      | _ => True
      end.
  Proof.
    intros Hs Hq. induction l as [|w l IH]; intros h Hb Ht.
    - split; [exists []; symmetry; apply app_nil_r|exact Ht].
    - cbn [visit_find]. unfold bind_res.
      pose proof (safe_vis v AVariableIdentifier w (Hs _) h Ht) as S1.
      destruct (visit_wm E v AVariableIdentifier w h) as [r h1| |] eqn:E1; [|exact I|exact I].
      destruct (quiet_vis v AVariableIdentifier w (Hq _) _ _ _ E1) as [e [-> Ne]].
      assert (Next : only_tolerated (h ++ e) ->
        match visit_find E v AVariableIdentifier (lit "Failure") l (h ++ e) with
        | Ret (Ok _) h' => (exists e, h' = h ++ e) /\ only_tolerated h'
        | Ret (Err msg) h' => failed_after h h' msg
        | _ => True
        end).
      { intro T. specialize (IH (h ++ e) (in_builtin_app h e Hb Ne) T).
        destruct (visit_find E v AVariableIdentifier (lit "Failure") l (h ++ e)) as [[k|msg] h'| |]; [| |exact I|exact I].
        - destruct IH as [[e' ->] T']. split; [exists (e ++ e'); symmetry; apply app_assoc|exact T'].
        - exact (failed_trans h e h' msg IH). }
      destruct r as [t|msg]; [apply Next; apply S1|].
      destruct (str_eqb msg (lit "Failure")) eqn:Em; [exact S1|].
      apply Next. destruct S1 as (e1 & m & n & k & Heq & Hd & T1). rewrite Heq.
      rewrite <- app_assoc in Heq. apply app_inv_head in Heq. subst e.
      replace ((h ++ e1) ++ EvEmit m n :: repeat EvPop k) with (((h ++ e1) ++ [EvEmit m n]) ++ repeat EvPop k) by now rewrite <- app_assoc.
      apply tol_pops. apply tol_snoc; [exact T1|]. intros m' n' msg' [= <- <-] Hd'. right. split.
      + apply in_builtin_app; [exact Hb|]. rewrite forallb_app in Ne. apply andb_prop in Ne. apply Ne.
      + intros ->. rewrite Hd in Hd'. injection Hd' as ->. revert Em. now vm_compute.
  Qed.

  (** *** Everything else *)
  Lemma safe_all {A} v (inj : A -> anynode) l : (forall m, In m (flat_map step_node (ats inj l)) -> safe (v m)) -> safe (visit_all E v inj l).
  Proof.
    induction l as [|w l IH]; intro H; [apply safe_ret|]. cbn [visit_all]. apply safe_bind.
    - apply safe_vis. apply H. now left.
    - intros _. apply IH. intros m Hm. apply H. now right.
  Qed.
  Lemma safe_until {A} v (inj : A -> anynode) l : (forall m, In m (flat_map step_node (ats inj l)) -> safe (v m)) -> safe (visit_until E v inj l).
  Proof.
    induction l as [|w l IH]; intro H; [apply safe_ret|]. cbn [visit_until]. apply safe_bind.
    - apply safe_vis. apply H. now left.
    - intros []; [|apply safe_ret]. apply IH. intros m Hm. apply H. now right.
  Qed.
  Lemma safe_args {A} v (inj : A -> anynode) l : (forall m, In m (flat_map step_node (ats inj l)) -> safe (v m)) -> safe (visit_args E v inj l).
  Proof.
    induction l as [|w l IH]; intro H; [apply safe_ret|]. cbn [visit_args]. apply safe_bind.
    - apply safe_vis. apply H. now left.
    - intros []; [|apply safe_ret]. apply IH. intros m Hm. apply H. now right.
  Qed.

  Definition special (n : anynode) : bool :=
    match n with ABuiltinArguments _ | AContractTypeArguments _ => true | _ => false end.
  Ltac kidm := cbn [flat_map step_node at_ app In]; rewrite ?flat_map_app, ?in_app_iff; cbn [flat_map step_node at_ app In]; tauto.
  Ltac sf H :=
    repeat first
      [ apply safe_ret | apply safe_panic | apply safe_push
      | apply safe_vis; apply H; kidm
      | apply H; kidm
      | apply safe_all; intros; apply H; kidm
      | apply safe_until; intros; apply H; kidm
      | apply safe_args; intros; apply H; kidm
      | apply safe_bind; [|intro]
      | progress unfold kid_of, kcont
      | match goal with |- safe (match ?x with _ => _ end) => destruct x end
      | progress cbn beta iota ].
  Lemma safe_children v n : special n = false -> (forall m, In m (kid_nodes n) -> safe (v m)) -> safe (children E v n).
  Proof.
    intros Hs H. unfold kid_nodes in H.
    destruct n as [n|n|n|n|n|n|n|n|n|n|n|n|n|n|n|n|n|n|n|n|n|n|n|n|n|n|n|n|n|n|n|n|n|n|n|n|n|n|n|n|n|n|n|n|n|n];
      try discriminate Hs; destruct n;
      repeat match goal with
      | b : NodeByteStr |- _ => destruct b
      | o : option _ |- _ => destruct o
      end; cbn [kids opt_at app] in H |- *; cbn [children]; try solve [sf H].
    clear Hs. apply safe_bind; [|intro; apply safe_ret].
    induction statements as [|st l IH]; [apply safe_ret|].
    apply safe_bind; [apply H; now left|]. intros _. apply IH. intros m Hm. apply H. now right.
  Qed.

  Definition is_cta (n : anynode) : bool := match n with AContractTypeArguments _ => true | _ => false end.
  Lemma kid_not_cta n m : In m (kid_nodes n) -> is_cta m = false.
  Proof.
    intros Hm. unfold kid_nodes in Hm.
    destruct n as [n|n|n|n|n|n|n|n|n|n|n|n|n|n|n|n|n|n|n|n|n|n|n|n|n|n|n|n|n|n|n|n|n|n|n|n|n|n|n|n|n|n|n|n|n|n]; destruct n;
      repeat match goal with
      | b : NodeByteStr |- _ => destruct b
      | o : option _ |- _ => destruct o
      end;
      cbn [kids opt_at app flat_map step_node at_ extra] in Hm;
      rewrite ?flat_map_app in Hm; cbn [flat_map step_node at_ app In] in Hm;
      rewrite ?in_app_iff in Hm;
      repeat match goal with
      | H : _ \/ _ |- _ => destruct H as [H|H]
      | H : False |- _ => destruct H
      | H : In _ (flat_map step_node (ats _ _)) |- _ => apply in_ats in H; destruct H as [? [? ->]]
      end; subst; try reflexivity.
    induction statements as [|st l IH]; [destruct Hm|]. cbn in Hm. destruct Hm as [<- |Hm]; [reflexivity|auto].
  Qed.

  Lemma safe_visit fuel : forall n, is_cta n = false -> safe (visit E fuel n).
  Proof.
    induction fuel as [|fuel IH]; intros n Hn; [intros h _; exact I|].
    assert (Hkids : forall m, In m (kid_nodes n) -> safe (visit E fuel m)) by (intros m Hm; apply IH; exact (kid_not_cta n m Hm)).
    destruct (special n) eqn:Hs.
    { destruct n; try discriminate Hs; try discriminate Hn. destruct n as [l].
      intros h Ht. cbn [visit visit_node children]. unfold standard. unfold bind_res at 1. cbn [emit recorder].
      set (n0 := ABuiltinArguments (mkBuiltinArguments l)) in *.
      destruct (dec h Enter n0) as [[]|msg] eqn:Ed.
      - assert (T1 : only_tolerated (h ++ [EvEmit Enter n0])).
        { apply tol_snoc; [exact Ht|]. intros m' n' msg [= <- <-] Hd. congruence. }
        assert (B1 : in_builtin (h ++ [EvEmit Enter n0])) by (eexists h, _, []; split; reflexivity).
        pose proof (safe_find (visit E fuel) l (fun w => IH (AVariableIdentifier w) eq_refl) (fun w => quiet_visit fuel (AVariableIdentifier w) eq_refl) _ B1 T1) as F.
        unfold bind, bind_res. destruct (visit_find E (visit E fuel) AVariableIdentifier (lit "Failure") l (h ++ [EvEmit Enter n0])) as [[k|msg] h'| |] eqn:Ef; [| |exact I|exact I].
        + destruct F as [[e ->] T2].
          assert (Hk : k = Kid Continue).
          { revert Ef. generalize ((h ++ [EvEmit Enter n0]) ++ e). generalize (h ++ [EvEmit Enter n0]). clear. induction l as [|w l IH]; intros h0 h9 H; [now injection H as <- _|].
            cbn [visit_find] in H. unfold bind_res in H. destruct (visit_wm E (visit E fuel) AVariableIdentifier w h0) as [[t|m] h1| |]; try discriminate H.
            - exact (IH _ _ H).
            - destruct (str_eqb m (lit "Failure")); [discriminate H|exact (IH _ _ H)]. }
          subst k. assert (Hex : safe (emit E (visit E fuel) Exit n0)) by (apply safe_emit; now right).
          specialize (Hex _ T2). cbn [emit recorder] in Hex. destruct (dec _ Exit n0) as [t|msg].
          * destruct Hex as [_ T3]. split; [eexists; rewrite <- !app_assoc; reflexivity|exact T3].
          * rewrite <- (app_assoc h) in Hex |- *. exact (failed_trans h _ _ msg Hex).
        + exact (failed_trans h _ h' msg F).
      - unfold bind, bind_res, ret. split; [eexists; reflexivity|]. apply tol_snoc; [exact Ht|]. intros m' n' msg [= <- <-] Hd. congruence.
      - unfold bind, bind_res, raise. exists [], Enter, n0, 0. rewrite app_nil_r. auto. }
    assert (Hch : safe (children E (visit E fuel) n)) by (apply safe_children; assumption).
    destruct (is_address n) eqn:Ha.
    { destruct n; try discriminate Ha. intros h Ht. cbn [visit visit_node]. unfold bind_res at 1. cbn [emit recorder].
      set (n0 := AAddressType n) in *.
      assert (T1 : only_tolerated (h ++ [EvEmit Enter n0])).
      { apply tol_snoc; [exact Ht|]. intros m' n' msg [= <- <-] Hd. left. split; [reflexivity|]. eexists. reflexivity. }
      assert (S1 : safe (bind (match dec h Enter n0 with Ok Continue => children E (visit E fuel) n0 | _ => kcont end)
        (fun k => match k with Kid Continue => emit E (visit E fuel) Exit n0 | Kid SkipChildren => ret Continue | Early t => ret t end))).
      { apply safe_bind.
        - destruct (dec h Enter n0) as [[]|]; [exact Hch|apply safe_ret|apply safe_ret].
        - intros [[]|]; [|apply safe_ret|apply safe_ret]. apply safe_emit. now right. }
      specialize (S1 _ T1). cbn [emit recorder] in S1. 
      match goal with |- match ?x with _ => _ end => match type of S1 with match ?y with _ => _ end => change y with x in S1; destruct x as [[a|msg] h'| |] end end; [| |exact I|exact I].
      - destruct S1 as [[e ->] T]. split; [eexists; rewrite <- app_assoc; reflexivity|exact T].
      - exact (failed_trans h _ h' msg S1). }
    assert (St : safe (standard (fun m => emit E (visit E fuel) m n) (children E (visit E fuel) n))).
    { intros h Ht. unfold standard. unfold bind_res at 1. pose proof (safe_emit (visit E fuel) Enter n (or_introl Ha) h Ht) as He.
      cbn [emit recorder] in He |- *. destruct (dec h Enter n) as [t|msg] eqn:Ed.
      - destruct He as [_ T1].
        assert (S1 : safe (bind (match t with Continue => children E (visit E fuel) n | SkipChildren => ret (Kid SkipChildren) end)
          (fun k => match k with Kid Continue => emit E (visit E fuel) Exit n | Kid SkipChildren => ret Continue | Early t => ret t end))).
        { apply safe_bind; [destruct t; [exact Hch|apply safe_ret]|]. intros [[]|]; [|apply safe_ret|apply safe_ret].
          apply safe_emit. now right. }
        specialize (S1 _ T1). cbn [emit recorder] in S1.
        destruct t; match goal with |- match ?x with _ => _ end => match type of S1 with match ?y with _ => _ end => change y with x in S1; destruct x as [[a|msg] h'| |] end end; try exact I.
        + destruct S1 as [[e ->] T]. split; [eexists; rewrite <- app_assoc; reflexivity|exact T].
        + exact (failed_trans h _ h' msg S1).
        + destruct S1 as [[e ->] T]. split; [eexists; rewrite <- app_assoc; reflexivity|exact T].
        + exact (failed_trans h _ h' msg S1).
      - exact He. }
    destruct n; try discriminate Ha; exact St.
  Qed.
End Abort.
