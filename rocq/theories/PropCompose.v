(** Property C62: components compose. *)
From Coq Require Import List.
From Verif Require Import Chars Lexer LexSpec LexFacts LexWritten Spaced Ast Grammar Cfg Parser GrammarLink Types Visitor Emitter
  EmitSpec EmitProgram EmitSteps EmitSig Contract Erase EraseFacts EmitErase DerInv Brackets PropParse2 PropEmit
  ComposeSpec ComposeDer ComposeEmit.
Import ListNotations.
Local Open Scope nat_scope.

(** ** Acceptance as a property of the tokens *)
Definition at_start (t : token) : item := (start_position, t, start_position).
Definition acc (debug : stack_object -> str) (toks : list token) (c : contract) : Prop :=
  exists p, derives Program (map at_start toks) p /\ emit_program debug p = EOk c.
Lemma at_start_tokens toks : map item_token (map at_start toks) = toks.
Proof. rewrite map_map. apply map_id. Qed.
Lemma acc_iff U debug text toks : tokens_of U text = (toks, LEof) ->
  forall c, from_str U debug text = RValue c <-> acc debug toks c.
Proof.
  unfold tokens_of. intros H c. rewrite C37_ok. destruct (lex U text) as [items e]. injection H as <- ->. split.
  - intros (items' & p & [= <-] & Hd & He).
    destruct (derives_tokens _ _ (map at_start (map item_token items)) _ (eq_sym (at_start_tokens _)) Hd) as (p' & Hd' & Ee).
    exists p'. split; [exact Hd'|]. change (erase Program) with e_program in Ee. rewrite <- emit_erase, Ee, emit_erase. exact He.
  - intros (p & Hd & He). destruct (derives_tokens _ _ items _ (at_start_tokens _) Hd) as (p' & Hd' & Ee).
    exists items, p'. repeat split; [exact Hd'|]. change (erase Program) with e_program in Ee.
    rewrite <- emit_erase, Ee, emit_erase. exact He.
Qed.
Lemma acc_tokens U debug text c : from_str U debug text = RValue c -> exists toks, tokens_of U text = (toks, LEof).
Proof. intro H. apply C37_ok in H. destruct H as (items & p & E & _). unfold tokens_of. rewrite E. eauto. Qed.

(** ** Emission *)
Lemma emit_compose debug p k : emit_program debug p = EOk k ->
  exists k0 ts, runs debug (transition_decls (contract_node p)) ts
    /\ map t_name ts = map fst (transition_decls (contract_node p))
    /\ k = plus k0 ts
    /\ forall p' ts', same_head (contract_node p) (contract_node p') ->
         runs debug (transition_decls (contract_node p')) ts' -> emit_program debug p' = EOk (plus k0 ts').
Proof.
  rewrite emit_steps. cbv zeta. change (match p with mkProgram _ _ _ c => node c end) with (contract_node p).
  rewrite steps_head. unfold bind, bind_res. unfold first_state.
  destruct (head_steps debug (contract_node p) _) as [[[]|e] [st c]| |] eqn:E; try discriminate.
  destruct (tame_head debug (contract_node p) (name_stack (contract_name_node (contract_node p)))
    (mkContract (declared_name (contract_node p)) [] [] []) _ _ (clean_name _) eq_refl E) as [Hs Ht].
  destruct (each (step_transition debug) _ _) as [[[]|e] s'| |] eqn:E2; try discriminate.
  destruct (runs_of _ _ _ _ _ Hs E2) as (ts & Hr & Hm & ->). intros [= <-].
  exists c, ts. split; [exact Hr|]. split; [exact Hm|]. split; [reflexivity|]. intros p' ts' (H1 & H2 & H3) Hr'.
  rewrite emit_steps. cbv zeta. change (match p' with mkProgram _ _ _ c => node c end) with (contract_node p').
  rewrite steps_head. unfold bind, bind_res, head_steps, first_state in *.
  assert (Hn : declared_name (contract_node p') = declared_name (contract_node p)).
  { destruct (contract_node p), (contract_node p'). cbn in *. rewrite H1. reflexivity. }
  rewrite Hn, H1, H2, H3, E, Hr'. reflexivity.
Qed.

(** ** Tokens *)
Lemma names_of tc cs : der_list (Nt ComponentDefinition) (map at_start tc) cs ->
  map fst (flat_map component_decls cs) = map token_text (after KTransition [] None tc).
Proof.
  intro H. pose proof (transitions_keyword _ _ None H) as E. rewrite at_start_tokens in E. exact E.
Qed.
Lemma starts_of toks : from_component toks -> starts_component (map at_start toks).
Proof. destruct toks as [|t r]; [exact id|]. intros [-> | ->]; reflexivity. Qed.
Lemma map_app_inv {A B} (f : A -> B) l h t : map f l = h ++ t -> exists l1 l2, l = l1 ++ l2 /\ map f l1 = h /\ map f l2 = t.
Proof.
  revert l. induction h as [|x h IH]; intros l H; [exists [], l; auto|]. destruct l as [|a l]; [discriminate|].
  injection H as <- H. destruct (IH l H) as (l1 & l2 & -> & <- & <-). exists (a :: l1), l2. auto.
Qed.

(** What the words [y] add. *)
Definition adds (debug : stack_object -> str) (y : list token) (ts : list transition) : Prop :=
  exists cs, der_list (Nt ComponentDefinition) (map at_start y) cs /\ runs debug (flat_map component_decls cs) ts
    /\ map t_name ts = map token_text (after KTransition [] None y).
Lemma adds_nil debug : adds debug [] [].
Proof. exists []. split; [constructor|]. split; [apply runs_nil|reflexivity]. Qed.

Lemma runs_names debug l ts : runs debug l ts -> map t_name ts = map fst l.
Proof.
  intro H. pose proof (H [] contract_default) as E. destruct (runs_of _ _ _ _ _ (Forall_nil _) E) as (us & Hu & Hm & _).
  rewrite (runs_unique _ _ _ _ H Hu). exact Hm.
Qed.
Lemma adds_app debug y z ts us : adds debug y ts -> adds debug z us -> adds debug (y ++ z) (ts ++ us).
Proof.
  intros (cs & H1 & H2 & H3) (ds & H4 & H5 & H6).
  assert (Hd : der_list (Nt ComponentDefinition) (map at_start (y ++ z)) (cs ++ ds)) by (rewrite map_app; apply list_app; assumption).
  exists (cs ++ ds). split; [exact Hd|]. rewrite flat_map_app.
  assert (Hr := runs_app _ _ _ _ _ H2 H5). split; [exact Hr|]. rewrite (runs_names _ _ _ Hr), <- flat_map_app. apply names_of, Hd.
Qed.

(** Adding components to an accepted contract. *)
Lemma acc_app debug b c y ts : acc debug b c -> adds debug y ts -> acc debug (b ++ y) (plus c ts).
Proof.
  intros (p & Hd & He) (cs & Hc & Hr & _). destruct (program_split _ _ Hd) as (h & tc & E & Hq & Dl & Hf).
  destruct (emit_compose _ _ _ He) as (k0 & us & Hu & _ & -> & Hk).
  destruct (Hf (tc ++ map at_start y) (components_of p ++ cs) (list_app _ _ _ _ _ Dl Hc)) as (p' & Hd' & Hc' & Hs').
  exists p'. split; [rewrite map_app, E, <- app_assoc; exact Hd'|]. rewrite plus_plus. apply Hk; [exact Hs'|].
  rewrite transition_decls_of, Hc', flat_map_app. apply runs_app; [|exact Hr]. rewrite <- transition_decls_of. exact Hu.
Qed.
(** Cutting an accepted contract before a component. *)
Lemma acc_cut debug x y c : acc debug (x ++ y) c -> from_component y ->
  exists c0 ts, acc debug x c0 /\ adds debug y ts /\ c = plus c0 ts.
Proof.
  intros (p & Hd & He) Hy. destruct y as [|t y].
  { rewrite app_nil_r in Hd. exists c, []. rewrite plus_nil. split; [exists p; auto|]. split; [apply adds_nil|reflexivity]. }
  destruct (program_split _ _ Hd) as (h & tc & E & Hq & Dl & Hf).
  rewrite map_app in E. symmetry in E.
  destruct (quiet_before _ _ _ _ E Hq (starts_of _ Hy) ltac:(discriminate)) as (x' & Ex & ->).
  destruct (cut_list _ _ _ Dl (starts_of _ Hy)) as (cs1 & cs2 & Ecs & D1 & D2).
  destruct (emit_compose _ _ _ He) as (k0 & us & Hu & _ & -> & Hk).
  rewrite transition_decls_of, Ecs, flat_map_app in Hu.
  destruct (runs_split _ _ _ _ Hu) as (ts1 & ts2 & -> & R1 & R2).
  destruct (Hf x' cs1 D1) as (p' & Hd' & Hc' & Hs'). exists (plus k0 ts1), ts2. split; [|split].
  - exists p'. split; [rewrite Ex; exact Hd'|]. apply Hk; [exact Hs'|]. rewrite transition_decls_of, Hc'. exact R1.
  - exists cs2. split; [exact D2|]. split; [exact R2|]. rewrite (runs_names _ _ _ R2). apply names_of, D2.
  - rewrite plus_plus. reflexivity.
Qed.

(** ** C62 *)

(** Cut an accepted text before some component.  What comes before is a
    contract, and what comes after is a list of components that adds the same
    transitions to every accepted contract after which it is written. *)
Theorem C62_compose : forall U debug text x y c,
  from_str U debug text = RValue c -> tokens_of U text = (x ++ y, LEof) -> from_component y ->
  exists c0 ts,
    c = with_more c0 ts
    /\ map t_name ts = map token_text (after KTransition [] None y)
    /\ (forall text', tokens_of U text' = (x, LEof) -> from_str U debug text' = RValue c0)
    /\ (forall other b d text', from_str U debug other = RValue d -> tokens_of U other = (b, LEof) ->
          tokens_of U text' = (b ++ y, LEof) -> from_str U debug text' = RValue (with_more d ts)).
Proof.
  intros U debug text x y c H Ht Hy. apply (acc_iff _ _ _ _ Ht) in H.
  destruct (acc_cut _ _ _ _ H Hy) as (c0 & ts & H0 & Ha & ->). exists c0, ts. split; [reflexivity|]. split; [|split].
  - destruct Ha as (cs & _ & _ & Hn). exact Hn.
  - intros text' Ht'. apply (acc_iff _ _ _ _ Ht'). exact H0.
  - intros other b d text' Ho Hb Ht'. apply (acc_iff _ _ _ _ Hb) in Ho. apply (acc_iff _ _ _ _ Ht').
    exact (acc_app _ _ _ _ _ Ho Ha).
Qed.

(** The components of an accepted contract can be reordered, left out or
    repeated; each goes on to contribute what it contributed. *)
Theorem C62_select : forall U debug text head ks c,
  from_str U debug text = RValue c -> tokens_of U text = (head ++ List.concat ks, LEof) -> Forall from_component ks ->
  exists c0 ts,
    c = with_more c0 (List.concat ts)
    /\ Forall2 (fun k t => map t_name t = map token_text (after KTransition [] None k)) ks ts
    /\ forall sel text', tokens_of U text' = (head ++ select sel ks, LEof) ->
         from_str U debug text' = RValue (with_more c0 (select sel ts)).
Proof.
  intros U debug text head ks c H Ht Hk. apply (acc_iff _ _ _ _ Ht) in H. clear Ht.
  assert (Hc : exists c0 ts, acc debug head c0 /\ Forall2 (adds debug) ks ts /\ c = plus c0 (List.concat ts)).
  { revert c H. induction ks as [|k ks IH] using rev_ind; intros c H.
    - cbn in H. rewrite app_nil_r in H. exists c, []. split; [exact H|]. split; [constructor|]. cbn. rewrite plus_nil. reflexivity.
    - apply Forall_app in Hk. destruct Hk as [Hk Hl]. inversion Hl as [|? ? Hl1 _]; subst.
      rewrite concat_app in H. cbn [List.concat] in H. rewrite app_nil_r, app_assoc in H.
      destruct (acc_cut _ _ _ _ H Hl1) as (c1 & ts & H1 & Ha & ->). destruct (IH Hk _ H1) as (c0 & tss & H0 & Hf & ->).
      exists c0, (tss ++ [ts]). split; [exact H0|]. split; [apply Forall2_app; [exact Hf|constructor; [exact Ha|constructor]]|].
      rewrite concat_app, plus_plus. cbn [List.concat]. rewrite app_nil_r. reflexivity. }
  destruct Hc as (c0 & ts & H0 & Hf & ->). exists c0, ts. split; [reflexivity|]. split.
  { clear -Hf. induction Hf as [|k t ks ts (cs & _ & _ & Hn) _ IH]; constructor; assumption. }
  intros sel text' Ht'. apply (acc_iff _ _ _ _ Ht'). apply acc_app; [exact H0|].
  clear Ht'. unfold select. induction sel as [|i sel IH]; [apply adds_nil|]. cbn [map List.concat]. apply adds_app; [|exact IH].
  clear -Hf. revert i. induction Hf as [|k t ks ts Hk _ IH]; intros [|i]; cbn [nth]; try apply adds_nil; [exact Hk|apply IH].
Qed.

(** Whether components are accepted does not depend on the contract. *)
Corollary C62_context_free : forall U debug B B' BY BY' b b' y c c',
  from_str U debug B = RValue c -> tokens_of U B = (b, LEof) ->
  from_str U debug B' = RValue c' -> tokens_of U B' = (b', LEof) ->
  tokens_of U BY = (b ++ y, LEof) -> tokens_of U BY' = (b' ++ y, LEof) -> from_component y ->
  ((exists d, from_str U debug BY = RValue d) <-> (exists d, from_str U debug BY' = RValue d)).
Proof.
  assert (Hone : forall U debug B B' BY BY' b b' y c c',
    from_str U debug B = RValue c -> tokens_of U B = (b, LEof) ->
    from_str U debug B' = RValue c' -> tokens_of U B' = (b', LEof) ->
    tokens_of U BY = (b ++ y, LEof) -> tokens_of U BY' = (b' ++ y, LEof) -> from_component y ->
    (exists d, from_str U debug BY = RValue d) -> (exists d, from_str U debug BY' = RValue d)).
  { intros U debug B B' BY BY' b b' y c c' HB Hb HB' Hb' HY HY' Hy (d & Hd).
    destruct (C62_compose _ _ _ _ _ _ Hd HY Hy) as (c0 & ts & _ & _ & _ & H). exists (with_more c' ts). eauto. }
  intros U debug B B' BY BY' b b' y c c' HB Hb HB' Hb' HY HY' Hy. split.
  - exact (Hone U debug B B' BY BY' b b' y c c' HB Hb HB' Hb' HY HY' Hy).
  - exact (Hone U debug B' B BY' BY b' b y c' c HB' Hb' HB Hb HY' HY Hy).
Qed.

(** ** Witnesses *)
Definition base_src : str := lit "scilla_version 0 contract Bank (owner : ByStr20) field total : Uint128 = zero".
Definition body_src : str := lit "procedure Check (x : Int32) accept end transition Put (amount : Uint128, to : Map Int32 String) accept end transition Get () end".
Definition other_src : str := lit "scilla_version 0 library L contract Vault () transition Open () end".
Definition words (s : str) : list token := fst (tokens_of U_none s).

Example C62_witness : exists x y c c0 d ts,
  from_str U_none no_debug (base_src ++ lit " " ++ body_src) = RValue c
  /\ tokens_of U_none (base_src ++ lit " " ++ body_src) = (x ++ y, LEof) /\ from_component y
  /\ from_str U_none no_debug base_src = RValue c0 /\ c = with_more c0 ts
  /\ map t_name ts = [lit "Put"; lit "Get"]
  /\ from_str U_none no_debug other_src = RValue d /\ map t_name (c_transitions d) = [lit "Open"]
  /\ from_str U_none no_debug (other_src ++ lit " " ++ body_src) = RValue (with_more d ts).
Proof.
  exists (words base_src), (words body_src). do 4 eexists. split; [vm_compute; reflexivity|]. split; [vm_compute; reflexivity|].
  split; [vm_compute; right; reflexivity|]. split; [vm_compute; reflexivity|].
  split; [unfold with_more; cbn [c_name c_init_params c_fields c_transitions app]; reflexivity|].
  split; [vm_compute; reflexivity|]. split; [vm_compute; reflexivity|]. split; vm_compute; reflexivity.
Qed.

(** The last component first, the second twice, the first left out. *)
Example C62_witness_select :
  let head := words base_src in
  let ks := [words (lit "procedure Check (x : Int32) accept end"); words (lit "transition Put (amount : Uint128, to : Map Int32 String) accept end");
             words (lit "transition Get () end")] in
  tokens_of U_none (base_src ++ lit " " ++ body_src) = (head ++ List.concat ks, LEof) /\ Forall from_component ks
  /\ map (map token_text) (map (after KTransition [] None) ks) = [[]; [lit "Put"]; [lit "Get"]]
  /\ exists text' c', tokens_of U_none text' = (head ++ select [2; 1; 1] ks, LEof)
       /\ from_str U_none no_debug text' = RValue c' /\ map t_name (c_transitions c') = [lit "Get"; lit "Put"; lit "Put"].
Proof.
  split; [vm_compute; reflexivity|]. split; [vm_compute; repeat constructor; (left; reflexivity) || (right; reflexivity)|]. split; [vm_compute; reflexivity|].
  exists (base_src ++ lit " transition Get () end transition Put (amount : Uint128, to : Map Int32 String) accept end transition Put (amount : Uint128, to : Map Int32 String) accept end").
  eexists. split; [vm_compute; reflexivity|]. split; vm_compute; reflexivity.
Qed.

(** "Fields compose as well" is refuted: the same field means something else in
    another contract, or is rejected there (see C28). *)
Definition event_field : str := lit " field f : Event = e".
Theorem C62_fields_refuted : exists d1 d2 m,
  from_str U_none no_debug (lit "scilla_version 0 contract Bank ()" ++ event_field) = RValue d1
  /\ from_str U_none no_debug (lit "scilla_version 0 contract Vault ()" ++ event_field) = RValue d2
  /\ from_str U_none no_debug (lit "scilla_version 0 contract Vault (p : Int32)" ++ event_field) = RError (ParseErrorEmit m)
  /\ map field_type (c_fields d1) = [Other (lit "Bank")] /\ map field_type (c_fields d2) = [Other (lit "Vault")].
Proof.
  do 3 eexists. split; [vm_compute; reflexivity|]. split; [vm_compute; reflexivity|]. split; [vm_compute; reflexivity|].
  split; vm_compute; reflexivity.
Qed.
