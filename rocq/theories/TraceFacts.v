(** Facts about the traversal (used for C29 - C32). *)
From Verif Require Import Chars Lexer Ast Visitor Trace.
Local Open Scope nat_scope.

Lemma list_max_in {A} (h : A -> nat) l x : In x l -> h x <= list_max (map h l).
Proof.
  induction l as [|y l IH]; [intros []|]. intros [-> |H]; cbn [map list_max fold_right].
  - apply PeanoNat.Nat.le_max_l.
  - specialize (IH H). unfold list_max in IH. lia.
Qed.
Lemma maxs_in {A} (h : A -> nat) l w : In w l -> h (node w) <= maxs h l.
Proof. intro H. exact (list_max_in (fun w => h (node w)) l w H). Qed.
Lemma in_ats {A} (inj : A -> anynode) l m : In m (flat_map step_node (ats inj l)) -> exists w, In w l /\ m = inj (node w).
Proof.
  unfold ats. induction l as [|w l IH]; [intros []|]. cbn. intros [<- |H]; [eauto|].
  destruct (IH H) as [w' [H' E]]. eauto.
Qed.

Lemma height_kid n m : In m (kid_nodes n) -> height m < height n.
Proof.
  unfold kid_nodes.
  destruct n as [n|n|n|n|n|n|n|n|n|n|n|n|n|n|n|n|n|n|n|n|n|n|n|n|n|n|n|n|n|n|n|n|n|n|n|n|n|n|n|n|n|n|n|n|n|n]; destruct n;
    repeat match goal with
    | b : NodeByteStr |- _ => destruct b
    | o : option _ |- _ => destruct o
    end;
    cbn [kids opt_at app flat_map step_node at_ extra];
    rewrite ?flat_map_app; cbn [flat_map step_node at_ app In];
    rewrite ?in_app_iff;
    intro H;
    repeat match goal with
    | H : _ \/ _ |- _ => destruct H as [H|H]
    | H : False |- _ => destruct H
    | H : In _ (flat_map step_node (ats _ _)) |- _ => apply in_ats in H; destruct H as [? [? ->]]
    end; subst;
    cbn [height h_name h_meta h_var h_key h_value h_arg h_type h_entry h_afield h_addr h_tvarg h_tva h_lit h_atomic h_msg h_pat h_argpat h_expr h_clause
      h_cid h_access h_remote h_stmt h_sclause h_block h_annot h_typed h_pair h_params h_body h_alt h_single h_library h_cfield h_with h_proc h_trans h_comp h_contract h_imported h_imports h_program opt_h];
    unfold h_name, h_meta, h_var, h_access, h_imported, h_imports, h_cid;
    try match goal with
    | H : In ?w ?l |- context [list_max (map (fun a => ?h (node a)) ?l)] => pose proof (maxs_in h l w H); unfold maxs in *
    | H : In ?w ?l |- context [maxs ?h ?l] => pose proof (maxs_in h l w H)
    end; try lia.
  all: try (destruct n0; cbn; lia).
  assert (K : exists st, In st statements /\ m = AStatement st).
  { clear -H. induction statements as [|st l IH]; [destruct H|]. cbn in H. destruct H as [<- |H]; [exists st; split; [now left|reflexivity]|].
    destruct (IH H) as [st' [H1 H2]]. exists st'. split; [now right|exact H2]. }
  destruct K as [st [Hin ->]]. pose proof (list_max_in h_stmt statements st Hin). cbn [height]. lia.
Qed.

Lemma walks_app l1 e1 : walks l1 e1 -> forall l2 e2, walks l2 e2 -> walks (l1 ++ l2) (e1 ++ e2).
Proof.
  induction 1; intros l2 e2 H2; cbn [app].
  - exact H2.
  - rewrite <- app_assoc. cbn [app]. rewrite <- app_assoc. cbn [app]. rewrite app_comm_cons. 
    change (walks (At a b n :: l ++ l2) (EvPush a b :: e ++ EvPop :: es ++ e2)).
    replace (EvPush a b :: e ++ EvPop :: es ++ e2) with ((EvPush a b :: e ++ [EvPop]) ++ es ++ e2)
      by (cbn [app]; now rewrite <- !app_assoc).
    constructor; auto.
  - rewrite <- app_assoc. constructor; auto.
  - constructor; auto.
Qed.

(** The traversal of a node is unique. *)
Lemma walk_unique_both :
  (forall n e, walk n e -> forall e', walk n e' -> e = e') /\
  (forall l e, walks l e -> forall e', walks l e' -> e = e').
Proof.
  apply walk_mutind.
  - intros n body _ IH e' H. inversion H; subst. now rewrite (IH _ H0).
  - intros e' H. inversion H. reflexivity.
  - intros a b n l e es _ IH1 _ IH2 e' H. inversion H; subst. now rewrite (IH1 e0), (IH2 es0).
  - intros n l e es _ IH1 _ IH2 e' H. inversion H; subst. now rewrite (IH1 e0), (IH2 es0).
  - intros a b l es _ IH e' H. inversion H; subst. now rewrite (IH es0).
Qed.
Lemma walk_unique n e e' : walk n e -> walk n e' -> e = e'.
Proof. intros H H'. exact (proj1 walk_unique_both n e H e' H'). Qed.

(** Every node has a traversal. *)
Lemma walks_exist l : (forall m, In m (flat_map step_node l) -> exists e, walk m e) -> exists e, walks l e.
Proof.
  induction l as [|st l IH]; intro H; [exists []; constructor|].
  destruct IH as [es Hes]; [intros m Hm; apply H; cbn [flat_map]; apply in_or_app; now right|].
  destruct st as [a b n|n|a b].
  - destruct (H n) as [e He]; [now left|]. eexists. exact (walks_at a b n l e es He Hes).
  - destruct (H n) as [e He]; [now left|]. eexists. exact (walks_bare n l e es He Hes).
  - eexists. exact (walks_extra a b l es Hes).
Qed.
Lemma walk_exists n : exists e, walk n e.
Proof.
  remember (height n) as h eqn:Eh. revert n Eh. induction h as [h IH] using Wf_nat.lt_wf_ind. intros n ->.
  destruct (walks_exist (kids n)) as [e He].
  - intros m Hm. apply (IH (height m)); [apply height_kid; exact Hm|reflexivity].
  - eexists. exact (walk_node n e He).
Qed.

(** ** A visitor whose emitter always continues makes exactly the traversal *)
Section Continue.
  Context {S : Type} (E : emitter S) (f : mode -> anynode -> S -> S) (Hc : continues E f).
  Definition runs {A} (m : M S A) (a : A) (l : list step) : Prop :=
    forall s, exists e, walks l e /\ m s = Ret (Ok a) (play E f e s).
  Definition goes (v : anynode -> M S tr) (n : anynode) : Prop :=
    forall s, exists e, walk n e /\ v n s = Ret (Ok Continue) (play E f e s).

  Lemma play_app e1 e2 s : play E f (e1 ++ e2) s = play E f e2 (play E f e1 s).
  Proof. apply fold_left_app. Qed.
  Lemma runs_ret {A} (a : A) : runs (ret a) a [].
  Proof. intro s. exists []. split; [constructor|reflexivity]. Qed.
  Lemma runs_bind {A B} (m : M S A) a l1 (k : A -> M S B) b l2 :
    runs m a l1 -> runs (k a) b l2 -> runs (bind m k) b (l1 ++ l2).
  Proof.
    intros H1 H2 s. destruct (H1 s) as [e1 [W1 R1]]. destruct (H2 (play E f e1 s)) as [e2 [W2 R2]].
    exists (e1 ++ e2). split; [now apply walks_app|]. unfold bind, bind_res. rewrite R1, play_app. exact R2.
  Qed.
  Lemma runs_bare v n : goes v n -> runs (v n) Continue [Bare n].
  Proof.
    intros H s. destruct (H s) as [e [W R]]. exists e. split; [|exact R].
    rewrite <- (app_nil_r e). repeat constructor. exact W.
  Qed.
  Lemma runs_at {A} v (inj : A -> anynode) w : goes v (inj (node w)) -> runs (visit_wm E v inj w) Continue [at_ inj w].
  Proof.
    intros H s. unfold visit_wm. destruct (H (push_source_position E (wm_start w) (wm_end w) s)) as [e [W R]].
    exists ((EvPush (wm_start w) (wm_end w) :: e ++ [EvPop]) ++ []). split.
    - repeat constructor. exact W.
    - rewrite R, app_nil_r. cbn [play fold_left]. change (fold_left _ ?l ?s) with (play E f l s). rewrite play_app. reflexivity.
  Qed.
  Lemma runs_extra {A} (w : wm A) : runs (push_pos E w) tt [extra w].
  Proof. intro s. eexists. split; [repeat constructor|reflexivity]. Qed.
  Lemma runs_all {A} v (inj : A -> anynode) l : (forall m, In m (flat_map step_node (ats inj l)) -> goes v m) ->
    runs (visit_all E v inj l) tt (ats inj l).
  Proof.
    induction l as [|w l IH]; intro H; [apply runs_ret|]. cbn [visit_all].
    change (ats inj (w :: l)) with ([at_ inj w] ++ ats inj l). eapply runs_bind; [apply runs_at; apply H; now left|].
    apply IH. intros m Hm. apply H. now right.
  Qed.
  Lemma runs_until {A} v (inj : A -> anynode) l : (forall m, In m (flat_map step_node (ats inj l)) -> goes v m) ->
    runs (visit_until E v inj l) (Kid Continue) (ats inj l).
  Proof.
    induction l as [|w l IH]; intro H; [apply runs_ret|]. cbn [visit_until].
    change (ats inj (w :: l)) with ([at_ inj w] ++ ats inj l). eapply runs_bind; [apply runs_at; apply H; now left|].
    apply IH. intros m Hm. apply H. now right.
  Qed.
  Lemma runs_args {A} v (inj : A -> anynode) l : (forall m, In m (flat_map step_node (ats inj l)) -> goes v m) ->
    runs (visit_args E v inj l) Continue (ats inj l).
  Proof.
    induction l as [|w l IH]; intro H; [apply runs_ret|]. cbn [visit_args].
    change (ats inj (w :: l)) with ([at_ inj w] ++ ats inj l). eapply runs_bind; [apply runs_at; apply H; now left|].
    apply IH. intros m Hm. apply H. now right.
  Qed.
  Lemma runs_find {A} v (inj : A -> anynode) msg l : (forall m, In m (flat_map step_node (ats inj l)) -> goes v m) ->
    runs (visit_find E v inj msg l) (Kid Continue) (ats inj l).
  Proof.
    induction l as [|w l IH]; intro H; [apply runs_ret|]. cbn [visit_find].
    change (ats inj (w :: l)) with ([at_ inj w] ++ ats inj l).
    assert (H1 : runs (visit_wm E v inj w) Continue [at_ inj w]) by (apply runs_at; apply H; now left).
    assert (H2 : runs (visit_find E v inj msg l) (Kid Continue) (ats inj l)) by (apply IH; intros m Hm; apply H; now right).
    intro s. destruct (H1 s) as [e1 [W1 R1]]. destruct (H2 (play E f e1 s)) as [e2 [W2 R2]].
    exists (e1 ++ e2). split; [now apply walks_app|]. unfold bind_res. rewrite R1, play_app. exact R2.
  Qed.
  Lemma runs_conv {A} (m : M S A) a l l' : runs m a l -> l = l' -> runs m a l'.
  Proof. now intros H <-. Qed.

  Ltac kidm := cbn [flat_map step_node at_ app In]; rewrite ?flat_map_app, ?in_app_iff; cbn [flat_map step_node at_ app In]; tauto.
  Ltac run H :=
    repeat first
      [ eapply runs_ret
      | eapply runs_extra
      | eapply runs_at; apply H; kidm
      | eapply runs_bare; apply H; kidm
      | eapply runs_all; intros; apply H; kidm
      | eapply runs_until; intros; apply H; kidm
      | eapply runs_args; intros; apply H; kidm
      | eapply runs_find; intros; apply H; kidm
      | eapply runs_bind
      | progress unfold kid_of, kcont
      | progress cbn beta iota ].

  Lemma runs_children v n : (forall d, n = ALibrarySingleDefinition d -> is_let d = false) ->
    (forall m, In m (kid_nodes n) -> goes v m) -> runs (children E v n) (Kid Continue) (kids n).
  Proof.
    intros Hl H. unfold kid_nodes in H.
    destruct n as [n|n|n|n|n|n|n|n|n|n|n|n|n|n|n|n|n|n|n|n|n|n|n|n|n|n|n|n|n|n|n|n|n|n|n|n|n|n|n|n|n|n|n|n|n|n]; destruct n;
      repeat match goal with
      | b : NodeByteStr |- _ => destruct b
      | o : option _ |- _ => destruct o
      end; cbn [kids opt_at app] in H |- *; cbn [children];
      try (specialize (Hl _ eq_refl); discriminate Hl);
      try solve [eapply runs_conv; [solve [run H]|cbn [app]; rewrite ?app_nil_r, <- ?app_assoc; reflexivity]].
    eapply runs_conv; [eapply runs_bind; [|apply runs_ret]|apply app_nil_r].
    induction statements as [|st l IH]; [apply runs_ret|].
    cbn [map]. change (Bare (AStatement st) :: ?r) with ([Bare (AStatement st)] ++ r).
    eapply runs_bind; [apply runs_bare; apply H; now left|]. apply IH; [discriminate|]. intros m Hm. apply H. now right.
  Qed.

  Lemma has_let_kid n m : has_let n = false -> In m (kid_nodes n) -> has_let m = false.
  Proof.
    intros Hl Hm. unfold kid_nodes in Hm.
    destruct n as [n|n|n|n|n|n|n|n|n|n|n|n|n|n|n|n|n|n|n|n|n|n|n|n|n|n|n|n|n|n|n|n|n|n|n|n|n|n|n|n|n|n|n|n|n|n]; destruct n;
      repeat match goal with
      | b : NodeByteStr |- _ => destruct b
      | o : option _ |- _ => destruct o
      end;
      cbn [kids opt_at app flat_map step_node at_ extra] in Hm;
      rewrite ?flat_map_app in Hm; cbn [flat_map step_node at_ app In] in Hm;
      rewrite ?in_app_iff in Hm;
      repeat match goal with
      | H : _ \/ _ |- _ => destruct H as [H|H]
      | H : False |- _ => destruct H
      | H : In _ (flat_map step_node (ats _ _)) |- _ => apply in_ats in H; destruct H as [? [? ->]]
      end; subst; try reflexivity; try exact Hl.
    - clear Hl. induction statements as [|st l IH]; [destruct Hm|]. cbn in Hm. destruct Hm as [<- |Hm]; [reflexivity|auto].
    - cbn in Hl. cbn. destruct (is_let (node x)) eqn:Ex; [|reflexivity].
      rewrite <- Hl. symmetry. apply existsb_exists. exists x. auto.
  Qed.

  Lemma visit_goes : forall fuel n, has_let n = false -> height n <= fuel -> goes (visit E fuel) n.
  Proof.
    induction fuel as [|fuel IH]; intros n Hl Hf.
    - exfalso. assert (forall k, height k <> 0); [|specialize (H n); lia].
      intros k. destruct k as [n'|n'|n'|n'|n'|n'|n'|n'|n'|n'|n'|n'|n'|n'|n'|n'|n'|n'|n'|n'|n'|n'|n'|n'|n'|n'|n'|n'|n'|n'|n'|n'|n'|n'|n'|n'|n'|n'|n'|n'|n'|n'|n'|n'|n'|n'];
        destruct n'; discriminate.
    - assert (R : runs (children E (visit E fuel) n) (Kid Continue) (kids n)).
      { apply runs_children.
        - intros d ->. exact Hl.
        - intros m Hm. apply IH; [exact (has_let_kid n m Hl Hm)|]. pose proof (height_kid n m Hm). lia. }
      intro s. destruct (R (f Enter n s)) as [e [W Re]].
      exists (EvEmit Enter n :: e ++ [EvEmit Exit n]). split; [constructor; exact W|].
      assert (G : visit_node E (visit E fuel) n s = Ret (Ok Continue) (f Exit n (play E f e (f Enter n s)))).
      { destruct n; cbn [visit_node]; unfold standard, bind, bind_res; rewrite Hc, Re; apply Hc. }
      cbn [visit]. rewrite G. cbn [play fold_left]. change (fold_left _ ?l ?s) with (play E f l s). rewrite play_app. reflexivity.
  Qed.
End Continue.
