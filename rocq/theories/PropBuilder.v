(** Property C70: building the value to compare with. *)
From Verif Require Import Chars Lexer Types Grammar Cfg Parser Contract Builder View ResultView PropCompare PropApi PropParse2 DeriveFacts.

(** ** Specification *)
(** A list built from the default by pushing, one after the other. *)
Fixpoint pushed_onto (l : list field) (ps : list (str * ty)) : list field :=
  match ps with [] => l | (n, t) :: r => pushed_onto (field_list_push l (field_new n t)) r end.
Definition built_fields (ps : list (str * ty)) : list field := pushed_onto field_list_default ps.
Fixpoint transitions_onto (l : list transition) (ts : list (str * list (str * ty))) : list transition :=
  match ts with
  | [] => l
  | (n, []) :: r => transitions_onto (transition_list_push l (transition_new_without_param n)) r
  | (n, ps) :: r => transitions_onto (transition_list_push l (transition_new n (built_fields ps))) r
  end.
Definition built_contract (n : str) (params fields : list (str * ty)) (ts : list (str * list (str * ty))) : contract :=
  mkContract n (built_fields params) (built_fields fields) (transitions_onto transition_list_default ts).

Definition name_and_type (f : field) : str * ty := (field_name f, field_type f).
Definition name_and_params (t : transition) : str * list (str * ty) := (t_name t, map name_and_type (t_params t)).

(** ** Proof *)
Definition as_field (p : str * ty) : field := mkField (fst p) (snd p).
Lemma pushed_spec ps : forall l, pushed_onto l ps = l ++ map as_field ps.
Proof.
  induction ps as [|[n t] ps IH]; intro l; cbn [pushed_onto map]; [symmetry; apply app_nil_r|].
  rewrite IH. unfold field_list_push. rewrite <- app_assoc. reflexivity.
Qed.
Lemma built_spec ps : built_fields ps = map as_field ps.
Proof. apply pushed_spec. Qed.
Lemma as_field_inv f p : as_field p = f <-> p = name_and_type f.
Proof. destruct f as [n t], p as [m u]. unfold as_field, name_and_type. cbn. split; [intros [= -> ->]|intros [= -> ->]]; reflexivity. Qed.
Lemma map_iff {A B} (f : A -> B) (g : B -> A) : (forall a b, f a = b <-> a = g b) -> forall l m, map f l = m <-> l = map g m.
Proof.
  intros H l m. split.
  - intros <-. rewrite map_map. rewrite <- (map_id l) at 1. apply map_ext. intro a. apply H. reflexivity.
  - intros ->. rewrite map_map. rewrite <- (map_id m) at 2. apply map_ext. intro b. apply H. reflexivity.
Qed.
Lemma built_iff ps fs : built_fields ps = fs <-> ps = map name_and_type fs.
Proof. rewrite built_spec. apply map_iff. intros p f. apply as_field_inv. Qed.
Definition as_transition (p : str * list (str * ty)) : transition := mkTransition (fst p) (map as_field (snd p)).
Lemma transitions_spec ts : forall l, transitions_onto l ts = l ++ map as_transition ts.
Proof.
  induction ts as [|[n ps] ts IH]; intro l; cbn [transitions_onto map]; [symmetry; apply app_nil_r|].
  destruct ps as [|p ps]; rewrite IH; unfold transition_list_push; rewrite <- app_assoc; [reflexivity|].
  unfold transition_new. rewrite built_spec. reflexivity.
Qed.
Lemma as_transition_inv p t : as_transition p = t <-> p = name_and_params t.
Proof.
  destruct t as [n fs], p as [m ps]. unfold as_transition, name_and_params. cbn [fst snd t_name t_params].
  pose proof (map_iff as_field name_and_type (fun a b => as_field_inv b a) ps fs) as E. split.
  - intros [= -> H]. f_equal. apply E, H.
  - intros [= -> H]. f_equal. apply E, H.
Qed.

Lemma lower_nonempty : ~ lower_name [].
Proof. intros (c & r & E & _). discriminate E. Qed.
Lemma upper_nonempty : ~ upper_name [].
Proof. intros (c & r & E & _). discriminate E. Qed.
Lemma name_nonempty : ~ name [].
Proof. intros [H|H]; [exact (lower_nonempty H)|exact (upper_nonempty H)]. Qed.

(** ** Theorems *)
(** [c == expected] exactly if [expected] was built from the same name, and the
    same names and types in the same order. *)
Theorem C70_expected_value : forall c n params fields ts,
  equal view_contract c (built_contract n params fields ts) = true <->
  n = c_name c /\ params = map name_and_type (c_init_params c) /\ fields = map name_and_type (c_fields c)
  /\ ts = map name_and_params (c_transitions c).
Proof.
  intros c n params fields ts. rewrite (proj1 C66_results_equal). unfold built_contract. cbn [c_name c_init_params c_fields c_transitions].
  rewrite <- !built_iff. rewrite transitions_spec. cbn [transition_list_default app].
  rewrite <- (map_iff as_transition name_and_params (fun a b => as_transition_inv a b)).
  split; intros (-> & H1 & H2 & H3); repeat split; congruence.
Qed.

(** No contract read from a text, and no field or transition in it, is a default
    value or has an empty name. *)
Theorem C70_never_default : forall U debug text c, from_str U debug text = RValue c ->
  equal view_contract c contract_default = false
  /\ Forall (fun f => equal view_field f field_default = false) (c_init_params c ++ c_fields c ++ flat_map t_params (c_transitions c))
  /\ Forall (fun t => forall ps, equal view_transition t (transition_new [] ps) = false) (c_transitions c).
Proof.
  intros U debug text c H. destruct (C38_name_shapes U debug text c H) as (Hn & Hp & Hf & Ht).
  assert (NE : forall (b : bool) (P : Prop), (b = true <-> P) -> ~ P -> b = false) by (intros [] P G F; [destruct F; apply G; reflexivity|reflexivity]).
  assert (FD : forall f, lower_name (field_name f) -> equal view_field f field_default = false).
  { intros f Hl. apply (NE _ _ (proj1 (proj2 (proj2 C66_results_equal)) _ _)). intros [E _]. cbn in E. rewrite E in Hl. exact (lower_nonempty Hl). }
  split; [|split].
  - apply (NE _ _ (proj1 C66_results_equal _ _)). intros [E _]. cbn in E. rewrite E in Hn. exact (upper_nonempty Hn).
  - rewrite !Forall_app. split; [|split]; [eapply Forall_impl; [exact FD|eassumption]..|].
    apply Forall_forall. intros f Hin. apply in_flat_map in Hin. destruct Hin as (t & Hin & Hin'). rewrite Forall_forall in Ht.
    destruct (Ht t Hin) as [_ G]. rewrite Forall_forall in G. apply FD, G, Hin'.
  - eapply Forall_impl; [|exact Ht]. intros t [G _] ps. apply (NE _ _ (proj1 (proj2 C66_results_equal) _ _)). intros [E _]. cbn in E.
    rewrite E in G. exact (name_nonempty G).
Qed.

(** A copy is equal to the original. *)
Theorem C70_clone : (forall t, equal view_ty (clone_ty t) t = true) /\ (forall f, equal view_field (clone_field f) f = true)
  /\ (forall l, clone_field_list l = l).
Proof.
  assert (T : forall t, clone_ty t = t).
  { intro t. induction t using ty_ind'; cbn [clone_ty]; try congruence. f_equal. induction H as [|[m x] l Hx _ IH]; [reflexivity|].
    cbn [map field_type] in *. rewrite Hx, IH. reflexivity. }
  split; [intro t; rewrite (proj1 (proj2 (proj2 (proj2 C66_results_equal)))); apply T|].
  assert (F : forall f, clone_field f = f) by (intros [m x]; cbn; rewrite T; reflexivity).
  split; [intro f; rewrite (proj1 (proj2 (proj2 C66_results_equal))), F; split; reflexivity|].
  intro l. unfold clone_field_list. rewrite <- (map_id l) at 2. apply map_ext, F.
Qed.

(** Who goes through a list sees the elements that were pushed, in order; an
    element pushed later comes last. *)
Theorem C70_elements_seen :
  (forall ps, map name_and_type (field_list_deref (built_fields ps)) = ps)
  /\ (forall ts, map name_and_params (transition_list_deref (transitions_onto transition_list_default ts)) = ts)
  /\ (forall l f, field_list_deref (field_list_push l f) = field_list_deref l ++ [f])
  /\ (forall l t, transition_list_deref (transition_list_push l t) = transition_list_deref l ++ [t])
  /\ field_list_deref field_list_default = [] /\ transition_list_deref transition_list_default = [].
Proof.
  split; [intro ps; symmetry; apply built_iff; reflexivity|]. split; [|repeat split].
  intro ts. symmetry. apply (map_iff as_transition name_and_params (fun a b => as_transition_inv a b)).
  unfold transition_list_deref. rewrite transitions_spec. reflexivity.
Qed.

(** As in the documentation of [Contract::from_str]. *)
Example C70_witness : exists c,
  from_str U_none no_debug (lit "scilla_version 0 library L contract C(a: Uint32) field f: ByStr20 = x transition T() end transition V(b: Option Bool) end"%string) = RValue c
  /\ equal view_contract c (built_contract (lit "C") [(lit "a", Uint32)] [(lit "f", ByStr20)] [(lit "T", []); (lit "V", [(lit "b", TyOption TyBool)])]) = true.
Proof. eexists. split; vm_compute; reflexivity. Qed.
