(** C59: everything in a result is spelled with tokens of the text, against the
    specification in Origin.v. *)
From Verif Require Import Chars Lexer LexSpec LexFacts Ast Grammar Cfg Parser GrammarLink Types Visitor Emitter Contract EmitSpec EmitSig EmitSteps
  DerInv Print PrintFacts PropPrint Spaced PropParse2 PropEmit PropRange Origin OriginFacts.
Local Open Scope nat_scope.

(** Each token of the text is used once; those between [contract] and the end of
    the parameter list are used at most twice. *)
Theorem C59_spelled_from_tokens : forall U debug text c toks,
  from_str U debug text = RValue c -> tokens_of U text = (toks, LEof) ->
  exists words pre name params post,
    spelt_contract c words /\
    toks = pre ++ TContract :: name :: params ++ post /\
    (exists items v, params = map item_token items /\ derives ComponentParameters items v) /\
    forall w, occurrences w words <= occurrences w (map token_text toks) + occurrences w (map token_text (name :: params)).
Proof.
  intros U debug text c toks H Ht. destruct (ok_parts _ _ _ _ H) as (items & p & _ & Ht' & Hd & Hp & He).
  rewrite Ht in Ht'. injection Ht' as ->. pose proof (proj1 (derives_write _ _ _ Hd)) as Hm.
  rewrite emit_steps in He. destruct p as [ver im lib con]. cbv zeta in He.
  destruct (steps debug (node con) (first_state (node con))) as [[u|m] s| |] eqn:Es; try discriminate. injection He as <-.
  destruct (contract_words debug _ _ _ Es) as (words & Hw & Hf).
  apply program_inv in Hd. destruct Hd as (i0 & t1 & t2 & t3 & t4 & v & oi & ol & c & -> & _ & _ & _ & _ & D4 & E). injection E as _ _ _ <-.
  apply contract_inv in D4. destruct D4 as (ic & tn & tp & tw & tf & tc & n & ps & cn & fs & cs & -> & Hkc & Dn & Dp & _ & _ & _ & Ec).
  pose proof (proj1 (derives_write _ _ _ Dn)) as Mn. pose proof (proj1 (derives_write _ _ _ Dp)) as Mp.
  apply tni_inv in Dn. destruct Dn as (i & -> & _ & _).
  exists words, (map item_token ([i0] ++ t1 ++ t2 ++ t3)), (item_token i), (map item_token tp), (map item_token (tw ++ tf ++ tc)).
  split; [exact Hw|]. split.
  { assert (Ek : item_token ic = TContract) by (destruct (item_token ic); discriminate Hkc || reflexivity). rewrite <- Ek. clear.
    rewrite !app_assoc, <- (app_assoc _ [ic]). rewrite !map_app. cbn [map app]. rewrite <- !app_assoc. cbn [app]. reflexivity. }
  split; [eauto|]. rewrite Ec in Hf. cbn [contract_name_node] in Hf.
  apply matches_texts in Hm, Mn, Mp. cbn [write w_program] in Hm, Mn, Mp. rewrite texts_cons, !texts_app, Ec in Hm.
  intro w. specialize (Hf w). specialize (Hm w). specialize (Mn w). specialize (Mp w). cbn [map] in *. repeat rewrite occ_app in Hm, Hf. repeat rewrite occ_app in Hm. rewrite !occ_cons, ?occ_nil in *. lia.
Qed.
Corollary spelled_twice : forall U debug text c toks,
  from_str U debug text = RValue c -> tokens_of U text = (toks, LEof) ->
  exists words, spelt_contract c words /\ forall w, occurrences w words <= 2 * occurrences w (map token_text toks).
Proof.
  intros U debug text c toks H Ht. destruct (C59_spelled_from_tokens U debug text c toks H Ht) as (words & pre & name & params & post & Hw & -> & _ & Hf).
  exists words. split; [exact Hw|]. intro w. specialize (Hf w). rewrite !map_app in *. cbn [map] in *. rewrite map_app in *.
  repeat rewrite ?occ_app, ?occ_cons, ?occ_nil in *. lia.
Qed.

(** So every name in it is the text of a token. *)
Theorem C59_names_in_text : forall U debug text c toks,
  from_str U debug text = RValue c -> tokens_of U text = (toks, LEof) ->
  exists words, spelt_contract c words /\ forall w, In w words -> exists t, In t toks /\ token_text t = w.
Proof.
  intros U debug text c toks H Ht. destruct (spelled_twice U debug text c toks H Ht) as (words & Hw & Hf). exists words. split; [exact Hw|].
  intros w Hi. apply (count_occ_In word_dec) in Hi. specialize (Hf w). unfold occurrences in Hf.
  assert (Hi' : In w (map token_text toks)) by (apply (count_occ_In word_dec); lia). apply in_map_iff in Hi'. destruct Hi' as (t & E & Hin). eauto.
Qed.

Lemma fewer_length a : forall b, fewer a b -> List.length a <= List.length b.
Proof.
  induction a as [|x a IH]; intros b H; [apply le_0_n|].
  assert (Hi : In x b). { apply (count_occ_In word_dec). specialize (H x). rewrite occ_cons in H. unfold one in H. unfold occurrences in H at 2.
    destruct (word_dec x x); [lia|congruence]. }
  apply in_split in Hi. destruct Hi as (b1 & b2 & ->). rewrite app_length. cbn [List.length]. assert (Hf : fewer a (b1 ++ b2)) by fewer.
  apply IH in Hf. rewrite app_length in Hf. lia.
Qed.
Lemma spelt_size : (forall t ws, spelt t ws -> type_size t <= List.length ws)
  /\ (forall fs ws, spelt_fields fs ws -> fields_size fs <= List.length ws).
Proof.
  apply spelt_mutind; intros; cbn [type_size fields_size fold_right List.length field_type]; rewrite ?app_length in *; try lia.
  - destruct b; cbn; lia.
  - assert (E : forall l, fold_right (fun f n => (let '(mkField _ t) := f in 1 + type_size t) + n) 0 l = fields_size l)
      by (induction l as [|[x y] l IH]; [reflexivity|]; cbn [fold_right fields_size field_type] in *; rewrite IH; reflexivity).
    rewrite E. lia.
  - fold (fields_size l). lia.
Qed.
(** and the result is never more than twice as large as the text *)
Theorem C59_size : forall U debug text c toks,
  from_str U debug text = RValue c -> tokens_of U text = (toks, LEof) -> contract_size c <= 2 * List.length toks.
Proof.
  intros U debug text c toks H Ht. destruct (spelled_twice U debug text c toks H Ht) as (words & Hw & Hf).
  assert (Hl : List.length words <= List.length (map token_text toks ++ map token_text toks)) by (apply fewer_length; intro w; specialize (Hf w); rewrite occ_app; lia).
  rewrite app_length, map_length in Hl. enough (contract_size c <= List.length words) by lia. clear -Hw.
  destruct Hw as [n ps fs ts wp wf wt H1 H2 H3]. apply spelt_size in H1, H2. unfold contract_size. cbn [c_init_params c_fields c_transitions List.length].
  rewrite !app_length. assert (H : fold_right (fun t n => (1 + fields_size (t_params t)) + n) 0 ts <= List.length wt); [|lia].
  induction H3 as [|tn tps l ws ws' Hp _ IH]; cbn [fold_right List.length t_params]; [lia|]. apply spelt_size in Hp. rewrite app_length. lia.
Qed.

(** ** Witnesses *)
Ltac spell := repeat first
  [ eapply sc_contract | eapply st_cons | eapply st_nil | eapply sf_cons | eapply sf_nil | apply sp_bystr20 | eapply sp_option | eapply sp_list
  | eapply sp_pair | eapply sp_map | eapply sp_address | apply sp_other | apply sp_base; constructor ].
Definition osrc : str := lit "scilla_version 0 contract Bank (owner : ByStr20 with contract field total : Uint128 end)
  field m : Map ByStr20 (List Foo) = e field h : ByStr032 = e field k : A.B = e transition Pay (to : Pair Foo Foo) end".
Definition otoks : list token := fst (tokens_of U_none osrc).
Example C59_witness : exists c words, from_str U_none no_debug osrc = RValue c /\ tokens_of U_none osrc = (otoks, LEof)
  /\ spelt_contract c words /\ words = map lit ["Bank"; "owner"; "ByStr20"; "contract"; "total"; "Uint128"; "m"; "Map"; "ByStr20"; "List"; "Foo";
       "h"; "ByStr032"; "k"; "B"; "Pay"; "to"; "Pair"; "Foo"; "Foo"]%string.
Proof.
  eexists _, _. split; [vm_compute; reflexivity|]. split; [vm_compute; reflexivity|]. split.
  - spell. apply (sp_sized (lit "ByStr032") 32). exists [], (lit "032"). repeat split; try discriminate; [now left|repeat constructor].
  - reflexivity.
Qed.
(** A parameter of the contract taken up by an unnamed field of an address type
    (C56) is in the result twice, so once is not enough. *)
Definition osrc2 : str := lit "scilla_version 0 contract C (owner : Foo) field f : ByStr20 with contract field _x : Bool end = e".
Ltac undo := repeat match goal with
  | H : spelt_contract _ _ |- _ => inversion H; clear H; subst
  | H : spelt_fields _ _ |- _ => inversion H; clear H; subst
  | H : spelt_transitions _ _ |- _ => inversion H; clear H; subst
  | H : spelt _ _ |- _ => inversion H; clear H; subst
  | H : base_name _ _ |- _ => inversion H; clear H; subst
  end.
Theorem C59_each_token_once_refuted : exists c toks, from_str U_none no_debug osrc2 = RValue c /\ tokens_of U_none osrc2 = (toks, LEof)
  /\ (forall words, spelt_contract c words -> occurrences (lit "owner") words = 2) /\ occurrences (lit "owner") (map token_text toks) = 1
  /\ (forall words, spelt_contract c words -> occurrences (lit "Foo") words = 2) /\ occurrences (lit "Foo") (map token_text toks) = 1.
Proof.
  eexists _, _. split; [vm_compute; reflexivity|]. split; [vm_compute; reflexivity|].
  split; [|split; [vm_compute; reflexivity|]; split; [|vm_compute; reflexivity]].
  - intros words H. undo. vm_compute. reflexivity.
  - intros words H. undo. vm_compute. reflexivity.
Qed.
Example C59_witness_size : exists c toks, from_str U_none no_debug osrc = RValue c /\ tokens_of U_none osrc = (toks, LEof)
  /\ contract_size c = 19 /\ List.length toks = 51.
Proof. eexists _, _. split; [vm_compute; reflexivity|]. split; [vm_compute; reflexivity|]. split; vm_compute; reflexivity. Qed.
