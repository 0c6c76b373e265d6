(** Property C68: which errors reading a contract can report. *)
From Verif Require Import Chars Lexer Ast Types Grammar Cfg Parser Contract Emitter EmitSpec Machine MachineFacts DebugText Derive DeriveFacts
  PropMachine PropParse2.
From Coq Require Import PeanoNat Lia.
Local Open Scope nat_scope.

(** The six complaints.  A declaration that is found in the place of something else is one of
    the contract's parameters. *)
Inductive complaint (debug : stack_object -> str) (params : list str) : str -> Prop :=
| name_nothing : complaint debug params (lit "Expected symbol name, but found nothing.")
| name_type t : complaint debug params (lit "Expected symbol name, but found " ++ debug (SoTypeDefinition t) ++ lit ".")
| name_declaration f : In (field_name f) params ->
    complaint debug params (lit "Expected symbol name, but found " ++ debug (VariableDeclaration f) ++ lit ".")
| type_nothing : complaint debug params (lit "Expected type definition, but found nothing.")
| type_name i : complaint debug params (lit "Expected type definition, but found " ++ debug (IrIdentifier i) ++ lit ".")
| type_declaration f : In (field_name f) params ->
    complaint debug params (lit "Expected type definition, but found " ++ debug (VariableDeclaration f) ++ lit ".").

Section Facts.
  Context (debug : stack_object -> str) (params : list str).
  Notation exs := (execs debug).
  Notation ex := (exec debug).
  Definition of_params (o : stack_object) : Prop := match o with VariableDeclaration f => In (field_name f) params | _ => True end.
  Definition usual (s : Machine.state) : Prop := Forall of_params (fst s).
  (** what may come out: an ordinary stack, and a complaint if it shows ([b]) *)
  Definition fine (b : bool) (o : out) : Prop :=
    match o with
    | Done s => usual s
    | Fail m s => usual s /\ (b = true -> complaint debug params m)
    | Abort => True
    end.
  Definition good (b : bool) (l : list cmd) : Prop := forall s, usual s -> fine b (exs l s).

  Lemma fine_weak b o : fine true o -> fine b o.
  Proof. destruct o; cbn; tauto. Qed.
  Lemma good_weak b l : good true l -> good b l.
  Proof. intros H s Hs. apply fine_weak, H, Hs. Qed.
  Lemma good_nil b : good b []. Proof. intros s Hs. exact Hs. Qed.
  Lemma fine_then b o k : fine b o -> (forall s, usual s -> fine b (k s)) -> fine b (andthen o k).
  Proof. destruct o; cbn; auto. Qed.
  Lemma good_app b l m : good b l -> good b m -> good b (l ++ m).
  Proof. intros H1 H2 s Hs. rewrite execs_app. apply fine_then; [apply H1, Hs|exact H2]. Qed.
  Lemma fine_take_type b k s : usual s -> (forall t s, usual s -> fine b (k t s)) -> fine b (take_type debug k s).
  Proof.
    intros Hs Hk. unfold take_type, take. destruct s as [[|[i|f|t] r] c]; cbn [fst snd] in *.
    - cbn. split; [exact Hs|]. intros _. apply type_nothing.
    - inversion_clear Hs. cbn. split; [assumption|]. intros _. apply (type_name debug params i).
    - inversion_clear Hs. cbn. split; [assumption|]. intros _. apply (type_declaration debug params f). assumption.
    - inversion_clear Hs. apply Hk. assumption.
  Qed.
  Lemma fine_take_name b k s : usual s -> (forall t s, usual s -> fine b (k t s)) -> fine b (take_name debug k s).
  Proof.
    intros Hs Hk. unfold take_name, take. destruct s as [[|[i|f|t] r] c]; cbn [fst snd] in *.
    - cbn. split; [exact Hs|]. intros _. apply name_nothing.
    - inversion_clear Hs. apply Hk. assumption.
    - inversion_clear Hs. cbn. split; [assumption|]. intros _. apply (name_declaration debug params f). assumption.
    - inversion_clear Hs. cbn. split; [assumption|]. intros _. apply (name_type debug params t).
  Qed.
  Lemma fine_put b o s : of_params o -> usual s -> fine b (put o s).
  Proof. intros Ho Hs. constructor; assumption. Qed.

  Lemma good_name b n k : good b [Name n k].
  Proof. intros s Hs. rewrite execs_one. apply fine_put; [exact I|exact Hs]. Qed.
  Lemma good_stop b : good b [Stop]. Proof. intros s Hs. exact I. Qed.
  Lemma good_totype b : good b [ToType].
  Proof. intros s Hs. rewrite execs_one. cbn [exec]. apply fine_take_name; [exact Hs|]. intros i s' Hs'. apply fine_put; [exact I|exact Hs']. Qed.
  Lemma good_tomap b : good b [ToMap].
  Proof.
    intros s Hs. rewrite execs_one. cbn [exec]. apply fine_take_type; [exact Hs|]. intros t s' Hs'. apply fine_take_type; [exact Hs'|].
    intros t' s2 H2. apply fine_put; [exact I|exact H2].
  Qed.
  Lemma good_setname b n : good b [SetName n]. Proof. intros s Hs. exact Hs. Qed.
  Lemma good_attempt b l : good false l -> good b [Attempt l].
  Proof. intros H s Hs. rewrite execs_one, attempt_eq. specialize (H s Hs). destruct (exs l s); cbn in *; tauto. Qed.
  Lemma good_args b l : Forall (good b) l -> good b [Args l].
  Proof.
    intros H s Hs. rewrite execs_one, args_eq. apply fine_take_type; [exact Hs|]. clear s Hs. intros [m subs a].
    revert subs. induction H as [|x l Hx _ IH]; intros subs s Hs.
    - exact (fine_put b (SoTypeDefinition _) s I Hs).
    - rewrite each_arg_cons. apply fine_then; [apply Hx, Hs|]. intros s' Hs'. apply fine_take_type; [exact Hs'|]. intros t. apply IH.
  Qed.
  (** A declaration is made and taken at once. *)
  Lemma fine_decl b l n k : good b l -> (forall f s, field_name f = n -> usual s -> fine b (k f s)) -> forall s, usual s ->
    fine b (andthen (exs (l ++ [Declare n]) s) (take_decl debug k)).
  Proof.
    intros Hl Hk s Hs. rewrite execs_app. specialize (Hl s Hs). destruct (exs l s) as [s1|m s1|]; cbn [andthen] in *; [|exact Hl|exact I].
    rewrite execs_one. cbn [exec].
    assert (G : fine b (take_type debug (fun t s => match type_from t with Some ty => k (mkField n ty) s | None => Abort end) s1)).
    { apply fine_take_type; [exact Hl|]. intros t s2 H2. destruct (type_from t); [|exact I]. apply Hk; [reflexivity|exact H2]. }
    unfold take_type, take in G |- *. destruct s1 as [[|[i|f|t] r] c]; cbn [fst snd] in *; try exact G.
    destruct (type_from t) as [ty|]; [|exact I]. exact G.
  Qed.
  (** A field of an address type. *)
  Definition field_code (l : list cmd) : Prop := l = [] \/ exists a n, l = a ++ [Declare n] /\ good false a.
  Lemma good_record tn l : Forall field_code l -> good false [Record tn l].
  Proof.
    intros H s Hs. rewrite execs_one, record_eq. apply fine_take_type; [exact Hs|]. clear s Hs. intros [m subs a].
    generalize (@nil field). induction H as [|x l Hx _ IH]; intros fs s Hs.
    - exact (fine_put false (SoTypeDefinition _) s I Hs).
    - rewrite each_field_cons. destruct Hx as [->|(c & n & -> & Hc)].
      + cbn [execs andthen]. unfold take_decl, take. destruct s as [[|[i|f|t] r] ct]; cbn [fst snd] in *.
        * split; [exact Hs|discriminate].
        * inversion_clear Hs. split; [assumption|discriminate].
        * inversion_clear Hs. apply IH. assumption.
        * inversion_clear Hs. split; [assumption|discriminate].
      + apply fine_decl; [exact Hc| |exact Hs]. intros f s' _ Hs'. apply IH, Hs'.
  Qed.

  Lemma good_code_name b n : good b (code_name n).
  Proof. destruct n; cbn; [apply good_name|apply good_nil|apply good_name]. Qed.
  Lemma good_code_meta b m : good b (code_meta m).
  Proof. destruct m; cbn; [apply good_code_name|apply good_app; apply good_code_name|apply good_code_name|apply good_name]. Qed.
  Lemma good_head b m : good b (code_meta m ++ [ToType]).
  Proof. apply good_app; [apply good_code_meta|apply good_totype]. Qed.
  Lemma good_with_args b m l : Forall (good b) l -> good b (with_args (code_meta m) l).
  Proof.
    intro H. unfold with_args. apply good_app; [apply good_code_meta|]. apply good_app; [apply good_totype|].
    destruct l; [apply good_nil|apply good_args, H].
  Qed.

  Definition good_at (f : nat) : Prop :=
    (forall t, depth_type t <= f -> good true (code_type t)) /\ (forall t, depth_key t <= f -> good true (code_key t)) /\
    (forall t, depth_value t <= f -> good true (code_value t)) /\ (forall t, depth_arg t <= f -> good true (code_arg t)) /\
    (forall t, depth_entry t <= f -> good true (code_entry t)) /\ (forall t, depth_afield t <= f -> field_code (code_afield t)) /\
    (forall t, depth_addr t <= f -> good true (code_addr t)) /\ (forall t, depth_tvarg t <= f -> good true (code_tvarg t)) /\
    (forall t, depth_tva t <= f -> good true (code_tva t)).

  Lemma good_all f : good_at f.
  Proof.
    induction f as [|f IH].
    { unfold good_at. repeat apply conj; intros [] H; cbn in H; lia. }
    destruct IH as (IHt & IHk & IHv & IHa & IHe & IHf & IHd & IHg & IHw).
    unfold good_at. repeat apply conj; intros t H.
    - destruct t; cbn [depth_type code_type] in *.
      + apply good_with_args, Forall_map, Forall_forall. intros x Hx. apply IHa, (list_in depth_arg args); [lia|exact Hx].
      + apply good_app; [apply IHk; lia|]. apply good_app; [apply IHv; lia|apply good_tomap].
      + apply good_stop.
      + apply IHt. lia.
      + apply IHd. lia.
      + apply good_stop.
      + apply good_stop.
    - destruct t; cbn [depth_key code_key] in *.
      + apply good_head.
      + apply good_head.
      + apply good_app; [apply IHd; lia|apply good_totype].
      + apply good_app; [apply IHd; lia|apply good_totype].
    - destruct t; cbn [depth_value code_value] in *.
      + apply good_head.
      + apply good_app; [apply IHe; lia|apply good_tomap].
      + apply IHw. lia.
      + apply IHd. lia.
    - destruct t; cbn [depth_arg code_arg] in *.
      + apply IHt. lia.
      + apply good_head.
      + apply good_stop.
      + apply IHd. lia.
      + apply good_app; [apply IHk; lia|]. apply good_app; [apply IHv; lia|apply good_tomap].
    - destruct t as [k x]. cbn [depth_entry code_entry] in *. apply good_app; [apply IHk; lia|apply IHv; lia].
    - destruct t as [i x]. cbn [depth_afield code_afield] in *. destruct (node i) as [n| |]; [|left; reflexivity|left; reflexivity].
      right. do 2 eexists. split; [reflexivity|]. apply good_weak, IHt. lia.
    - destruct t as [i tn fs]. cbn [depth_addr code_addr] in *. apply good_attempt, good_app; [apply good_code_name|].
      apply (good_app false [ToType]); [apply good_totype|]. apply good_record, Forall_map, Forall_forall. intros x Hx. apply IHf, (list_in depth_afield fs); [lia|exact Hx].
    - destruct t; cbn [depth_tvarg code_tvarg] in *; [apply IHw; lia|apply good_head|apply good_stop].
    - destruct t; cbn [depth_tva code_tva] in *.
      + apply IHv. lia.
      + apply good_with_args, Forall_map, Forall_forall. intros x Hx. apply IHg, (list_in depth_tvarg args); [lia|exact Hx].
  Qed.
  Lemma good_type t : good true (code_type t).
  Proof. apply (good_all (depth_type t)). lia. Qed.
  Lemma good_flat {A} (code : A -> list cmd) l : (forall x, In x l -> good true (code x)) -> good true (flat_map code l).
  Proof.
    induction l as [|x l IH]; intro H; cbn [flat_map]; [apply good_nil|]. apply good_app; [apply H; left; reflexivity|].
    apply IH. intros y Hy. apply H. right. exact Hy.
  Qed.
  Lemma good_add d add : (forall s, exec debug add s = take_decl debug (fun f s => exec debug add (VariableDeclaration f :: fst s, snd s)) s) ->
    (forall f s, usual s -> fine true (exec debug add (VariableDeclaration f :: fst s, snd s))) -> good true (code_decl d ++ [add]).
  Proof.
    intros E H s Hs. rewrite execs_app. unfold code_decl.
    assert (G : fine true (andthen (exs (code_type (typed_type d) ++ [Declare (typed_name d)]) s) (take_decl debug (fun f s => exec debug add (VariableDeclaration f :: fst s, snd s))))).
    { apply fine_decl; [apply good_type| |exact Hs]. intros f s' _. apply H. }
    destruct (exs (code_type (typed_type d) ++ [Declare (typed_name d)]) s) as [s1| |]; [|exact G|exact G].
    cbn [andthen] in *. rewrite execs_one, E. exact G.
  Qed.
  Lemma good_keep d : In (typed_name d) params -> good true (code_decl d).
  Proof.
    intros Hin s Hs. unfold code_decl. rewrite execs_app. apply fine_then; [apply good_type, Hs|]. clear s Hs. intros s Hs. rewrite execs_one. cbn [exec].
    apply fine_take_type; [exact Hs|]. intros t s' Hs'. destruct (type_from t); [|exact I]. apply fine_put; [exact Hin|exact Hs'].
  Qed.
  Lemma good_transition n (ps : list NodeTypedIdentifier) : good true [Name n KComponentName; AddTransition (map code_decl ps)].
  Proof.
    apply (good_app true [_]); [apply good_name|]. intros s Hs. rewrite execs_one, transition_eq. generalize (@nil field). revert s Hs.
    induction ps as [|d ps IH]; intros s Hs fs; cbn [map].
    - cbn [each_param]. apply fine_take_name; [exact Hs|]. intros i [st c] H. cbn. destruct (kind i); try exact I. exact H.
    - apply (fine_decl true (code_type (typed_type d)) (typed_name d)); [apply good_type| |exact Hs]. intros f s' _ Hs'. apply IH, Hs'.
  Qed.
End Facts.

Lemma good_contract debug c : good debug (map typed_name (contract_param_decls c)) true (code_contract c).
Proof.
  unfold code_contract. apply good_app; [destruct c; apply good_code_name|]. apply good_app; [apply good_setname|].
  apply good_app; [apply good_flat; intros d _; apply good_add; [intros [[|[] r] ct]; reflexivity|intros f [st ct] H; exact H]|].
  apply good_app; [apply good_flat; intros d Hd; apply good_keep, in_map, Hd|].
  apply good_app; [apply good_flat; intros d _; apply good_add; [intros [[|[] r] ct]; reflexivity|intros f [st ct] H; exact H]|].
  apply good_flat. intros t _. apply good_transition.
Qed.

(** The names of the contract's parameters. *)
Definition parameter_names (p : NodeProgram) : list str := match p with mkProgram _ _ _ c => map typed_name (contract_param_decls (node c)) end.

(** ** C68 *)
(** In a program that parses, reading can only fail with one of the six complaints;
    in particular it never misses a declaration. *)
Theorem C68_complaints : forall U debug text p m, parse_str U Program text = POk p ->
  from_str U debug text = RError (ParseErrorEmit m) -> complaint debug (parameter_names p) m.
Proof.
  intros U debug text [v imps lib c] m Hp H. rewrite (C65_machine _ _ _ _ Hp) in H. cbn [code_program parameter_names] in *.
  pose proof (good_contract debug (node c) start (Forall_nil _)) as G.
  destruct (execs debug (code_contract (node c)) start) as [s|m' s|]; try discriminate. injection H as <-. apply G. reflexivity.
Qed.

(** All six occur. *)
Definition read_error (text msg : str) : Prop := from_str U_none (debug_object all_printable) text = RError (ParseErrorEmit msg).
Theorem C68_all_occur :
  read_error (lit "scilla_version 0 contract C (a : Event)")
    (lit "Expected symbol name, but found nothing.")
  /\ read_error (lit "scilla_version 0 contract C () field f : Map Int32 Event = e")
    (lit "Expected symbol name, but found TypeDefinition(SrType { main_type: ""Int32"", sub_types: [], address_type: None }).")
  /\ read_error (lit "scilla_version 0 contract C (a : Int32) field f : Event = e")
    (lit "Expected symbol name, but found VariableDeclaration(Field { name: ""a"", type: Int32 }).")
  /\ read_error (lit "scilla_version 0 contract C () field f : Event with end = e field g : Event with end = e")
    (lit "Expected type definition, but found nothing.")
  /\ read_error (lit "scilla_version 0 contract C (a : Int32) field f : Event with end = e")
    (lit "Expected type definition, but found IrIdentifier(SrIdentifier { unresolved: ""C"", resolved: None, type_reference: None, kind: Unknown, is_definition: false }).")
  /\ read_error (lit "scilla_version 0 contract C (a : Int32, b : Int32) field f : Event with end = e")
    (lit "Expected type definition, but found VariableDeclaration(Field { name: ""a"", type: Int32 }).").
Proof. unfold read_error. split; [|split; [|split; [|split; [|split]]]]; vm_compute; reflexivity. Qed.
(** The program of the third of them parses. *)
Example C68_witness : exists p, parse_str U_none Program (lit "scilla_version 0 contract C (a : Int32) field f : Event = e") = POk p /\ parameter_names p = [lit "a"].
Proof. eexists. split; vm_compute; reflexivity. Qed.
