(** Property C64: words are what the regular expressions of the lexer match. *)
From Verif Require Import Chars Lexer LexerProofs LexSpec LexFacts LexStep PropLexer Regex RegexFacts.
From Coq Require Import PeanoNat Lia Wf_nat.
Local Open Scope nat_scope.

(** ** Character classes *)
Lemma cls_digit c : in_class false [(48, 57)%N] c = is_digit c.
Proof. unfold in_class, is_digit. cbn [existsb xorb fst snd]. destruct (in_range _ _ c); reflexivity. Qed.
Lemma cls_lower c : in_class false [(97, 122)%N] c = is_lower c.
Proof. unfold in_class, is_lower. cbn [existsb xorb fst snd]. destruct (in_range _ _ c); reflexivity. Qed.
Lemma cls_upper c : in_class false [(65, 90)%N] c = is_upper c.
Proof. unfold in_class, is_upper. cbn [existsb xorb fst snd]. destruct (in_range _ _ c); reflexivity. Qed.
Lemma cls_one a c : in_class false [(a, a)] c = (c =? a)%N.
Proof.
  unfold in_class, in_range. cbn [existsb xorb fst snd]. destruct (N.eqb_spec c a) as [-> |H]; [rewrite N.leb_refl; reflexivity|].
  destruct (N.leb_spec a c), (N.leb_spec c a); try reflexivity. lia.
Qed.
Lemma cls_not a c : in_class true [(a, a)] c = negb (c =? a)%N.
Proof. rewrite <- cls_one. unfold in_class. destruct (existsb _ _); reflexivity. Qed.
Lemma cls_word c : in_class false [(97, 122); (65, 90); (48, 57); (95, 95)]%N c = is_word c.
Proof.
  pose proof (cls_one 95 c) as H. unfold in_class, is_word, is_lower, is_upper, is_digit in *. cbn [existsb xorb fst snd] in *. rewrite <- H.
  destruct (in_range 97 122 c), (in_range 65 90 c), (in_range 48 57 c), (in_range 95 95 c); reflexivity.
Qed.
Lemma cls_hex c : in_class false [(97, 102); (65, 70); (48, 57)]%N c = is_hex c.
Proof.
  unfold in_class, is_hex, is_digit. cbn [existsb xorb fst snd]. destruct (in_range 97 102 c), (in_range 65 70 c), (in_range 48 57 c); reflexivity.
Qed.
Lemma cls_sign c : in_class false [(43, 43); (45, 45)]%N c = ((c =? 43) || (c =? 45))%N.
Proof.
  pose proof (cls_one 43 c) as H1. pose proof (cls_one 45 c) as H2. unfold in_class in *. cbn [existsb xorb fst snd] in *. rewrite <- H1, <- H2.
  destruct (in_range 43 43 c), (in_range 45 45 c); reflexivity.
Qed.

(** [m] is a prefix of [s], and what follows it. *)
Definition matched (o : option str) (s : str) : option place :=
  match o with Some m => Some (len m, skipn (len m) s) | None => None end.
Definition is_prefix (o : option str) (s : str) : Prop := match o with Some m => s = m ++ skipn (len m) s | None => True end.

Lemma shift_first r i s o : first r (i, s) o -> first r (i, s) o. Proof. exact id. Qed.

(** ** One expression after the other *)
Notation digits := (RClass false [(48, 57)%N]).
Notation word := (RClass false [(97, 122); (65, 90); (48, 57); (95, 95)]%N).
Notation hex := (RClass false [(97, 102); (65, 70); (48, 57)]%N).

Lemma first_digits i s : first (RSeq digits (RStar digits)) (i, s)
  match take_while is_digit s with [] => None | ds => Some (i + len ds, skipn (len ds) s) end.
Proof.
  apply first_char_seq; [reflexivity|]. destruct s as [|c s]; [reflexivity|]. rewrite cls_digit. cbn [take_while].
  destruct (is_digit c); [|reflexivity]. pose proof (first_class_star _ _ _ (S i) s cls_digit) as F. unfold skip_while in F.
  cbn [List.length skipn]. rewrite Nat.add_succ_r. exact F.
Qed.
Lemma take_prefix f s : s = take_while f s ++ skipn (len (take_while f s)) s.
Proof. exact (take_skip f s). Qed.

Lemma find_word n l f s : (forall c, in_class n l c = f c) ->
  finds (RSeq RStart (RSeq (RClass n l) (RStar word))) s (option_map (fun m => ([], m)) (re_word f s)).
Proof.
  intro Hf. apply finds_start; [reflexivity| |].
  - apply first_char_seq; [reflexivity|]. destruct s as [|c s]; [reflexivity|]. rewrite Hf. cbn [re_word]. destruct (f c); [|reflexivity].
    exact (first_class_star _ _ _ 1 s cls_word).
  - destruct s as [|c s]; [exact I|]. cbn [re_word]. destruct (f c); [|exact I]. cbn. f_equal. apply take_prefix.
Qed.

Definition agrees (pattern : str) (f : str -> option str) : Prop :=
  exists r, regex_new pattern = Some r /\ forall s, finds r s (option_map (fun m => ([], m)) (f s)).

Lemma regular_id_ok : agrees p_regular_id re_regular_id.
Proof. eexists. split; [vm_compute; reflexivity|]. intro s. apply find_word, cls_lower. Qed.
Lemma custom_type_id_ok : agrees p_custom_type_id re_custom_type_id.
Proof. eexists. split; [vm_compute; reflexivity|]. intro s. apply find_word, cls_upper. Qed.
Lemma special_id_ok : agrees p_special_id re_special_id.
Proof. eexists. split; [vm_compute; reflexivity|]. intro s. apply find_word, cls_one. Qed.
Lemma template_ok : agrees p_template_type_id re_template_type_id.
Proof.
  eexists. split; [vm_compute; reflexivity|]. intro s. apply finds_start; [reflexivity| |].
  - apply first_char_seq; [reflexivity|]. destruct s as [|c s]; [reflexivity|]. rewrite cls_one. cbn [re_template_type_id].
    destruct (c =? 39)%N; [|reflexivity]. apply first_char_seq; [reflexivity|]. destruct s as [|d s]; [reflexivity|].
    rewrite cls_upper. unfold re_custom_type_id. cbn [re_word]. destruct (is_upper d); [|reflexivity].
    exact (first_class_star _ _ _ 2 s cls_word).
  - destruct s as [|c s]; [exact I|]. cbn [re_template_type_id]. destruct (c =? 39)%N; [|exact I].
    destruct s as [|d s]; [exact I|]. unfold re_custom_type_id. cbn [re_word]. destruct (is_upper d); [|exact I].
    cbn. do 2 f_equal. apply take_prefix.
Qed.
Lemma signed_ok : agrees p_signed_integer re_signed_integer.
Proof.
  eexists. split; [vm_compute; reflexivity|]. intro s. apply finds_start; [reflexivity| |].
  - set (D := RSeq digits (RStar digits)). set (S0 := RClass false [(43, 43); (45, 45)]%N).
    destruct s as [|c s].
    + exists []. split; [|reflexivity]. econstructor; [constructor; constructor|]. cbn [app].
      apply (aw_cons _ _ _ [] []); [|constructor]. econstructor; constructor.
    + destruct (((c =? 43) || (c =? 45))%N) eqn:E.
      * assert (Hd : is_digit c = false).
        { apply orb_true_iff in E. destruct E as [E|E]; apply N.eqb_eq in E; subst c; reflexivity. }
        destruct (first_digits 1 s) as (l & W & H).
        exists (l ++ [] ++ []). split.
        -- econstructor; [constructor; [constructor; rewrite cls_sign; exact E|constructor]|]. cbn [app].
           apply aw_cons; [exact W|]. apply (aw_cons _ _ _ [] []); [|constructor].
           econstructor; [apply w_other; rewrite cls_digit; exact Hd|constructor].
        -- rewrite !app_nil_r, H. cbn [re_signed_integer]. rewrite E. destruct (take_while is_digit s); reflexivity.
      * destruct (first_digits 0 (c :: s)) as (l & W & H). exists (l ++ []). split.
        -- econstructor; [constructor; [apply w_other; rewrite cls_sign; exact E|constructor]|]. cbn [app].
           apply aw_cons; [exact W|constructor].
        -- rewrite app_nil_r, H. cbn [re_signed_integer]. rewrite E. destruct (take_while is_digit (c :: s)); reflexivity.
  - destruct s as [|c s]; [exact I|]. cbn [re_signed_integer]. destruct ((c =? 43) || (c =? 45))%N.
    + destruct (take_while is_digit s) as [|d ds] eqn:E; [exact I|]. cbn [List.length skipn app]. f_equal.
      change (s = (d :: ds) ++ skipn (len (d :: ds)) s). rewrite <- E. apply take_prefix.
    + destruct (take_while is_digit (c :: s)) as [|d ds] eqn:E; [exact I|]. rewrite <- E. apply take_prefix.
Qed.
Lemma bystr_ok : agrees p_bystr_with_size re_bystr_with_size.
Proof.
  eexists. split; [vm_compute; reflexivity|]. intro s. unfold re_bystr_with_size.
  assert (Hp : forall c0 r0 c, in_class false [(c0, c0)] c = (c0 =? c)%N /\ r0 = r0 :> nat).
  { intros c0 r0 c. rewrite cls_one, N.eqb_sym. auto. }
  apply finds_start; [reflexivity| |].
  - change kw_bystr with [66; 121; 83; 116; 114]%N.
    do 5 (apply first_char_seq; [reflexivity|]; destruct s as [|? s]; [reflexivity|];
          match goal with |- context [in_class false [(?a, ?a)] ?c] => rewrite (cls_one a c) end; cbn [starts_with];
          match goal with |- context [(?c =? ?k)%N] => rewrite (N.eqb_sym c k); destruct (k =? c)%N; cbn [andb] end; [|reflexivity]).
    cbn [skipn]. pose proof (first_digits 5 s) as F. destruct (take_while is_digit s) as [|d ds]; [exact F|]. exact F.
  - destruct (starts_with kw_bystr s) eqn:E; [|exact I]. destruct (take_while is_digit (skipn 5 s)) as [|d ds] eqn:Ed; [exact I|].
    change kw_bystr with [66; 121; 83; 116; 114]%N in *.
    do 5 (destruct s as [|? s]; [discriminate E|]; cbn [starts_with] in E; apply andb_true_iff in E; destruct E as [Ec E]; apply N.eqb_eq in Ec; subst).
    cbn [skipn] in Ed. cbn [app List.length skipn]. do 5 f_equal. change (s = (d :: ds) ++ skipn (len (d :: ds)) s). rewrite <- Ed. apply take_prefix.
Qed.
Lemma pairs_prefix s : s = hex_pairs s ++ skipn (len (hex_pairs s)) s.
Proof.
  remember (len s) as n eqn:En. revert s En. induction n as [n IH] using lt_wf_ind. intros s En.
  destruct s as [|a [|b s]]; try reflexivity. cbn [hex_pairs]. destruct (is_hex a && is_hex b); [|reflexivity].
  cbn [app List.length skipn]. do 2 f_equal. apply (IH (len s)); [cbn in En; lia|reflexivity].
Qed.
Lemma first_pairs i s : first (RStar (RSeq hex hex)) (i, s) (Some (i + len (hex_pairs s), skipn (len (hex_pairs s)) s)).
Proof.
  remember (len s) as n eqn:En. revert i s En. induction n as [n IH] using lt_wf_ind. intros i s En.
  assert (Hstop : ways (RSeq hex hex) (i, s) [] -> first (RStar (RSeq hex hex)) (i, s) (Some (i, s))).
  { intro W. exists ([] ++ [(i, s)]). split; [econstructor; [exact W|constructor|constructor]|reflexivity]. }
  destruct s as [|a [|b s]].
  - cbn. rewrite Nat.add_0_r. apply Hstop. econstructor; constructor.
  - cbn. rewrite Nat.add_0_r. apply Hstop. destruct (in_class false [(97, 102); (65, 70); (48, 57)]%N a) eqn:E.
    + econstructor; [constructor; exact E|]. apply (aw_cons _ _ _ [] []); constructor.
    + econstructor; [apply w_other; exact E|constructor].
  - cbn [hex_pairs]. destruct (is_hex a) eqn:Ha; cbn [andb]; [destruct (is_hex b) eqn:Hb|].
    + destruct (IH (len s) ltac:(cbn in En; lia) (S (S i)) s eq_refl) as (l & W & H).
      exists ((l ++ []) ++ [(i, a :: b :: s)]). split.
      * apply (w_star _ _ [(S (S i), s)]).
        -- econstructor; [constructor; rewrite cls_hex; exact Ha|]. apply (aw_cons _ _ _ [(S (S i), s)] []); [constructor; rewrite cls_hex; exact Hb|constructor].
        -- constructor; [unfold later; cbn; lia|constructor].
        -- constructor; [exact W|constructor].
      * destruct l as [|q l]; [discriminate|]. cbn [app hd_error List.length skipn] in *. rewrite !Nat.add_succ_r. exact H.
    + cbn. rewrite Nat.add_0_r. apply Hstop. econstructor; [constructor; rewrite cls_hex; exact Ha|].
      apply (aw_cons _ _ _ [] []); [apply w_other; rewrite cls_hex; exact Hb|constructor].
    + cbn. rewrite Nat.add_0_r. apply Hstop. econstructor; [apply w_other; rewrite cls_hex; exact Ha|constructor].
Qed.
Lemma hex_ok : agrees p_hex_number re_hex_number.
Proof.
  eexists. split; [vm_compute; reflexivity|]. intro s. apply finds_start; [reflexivity| |].
  - apply first_char_seq; [reflexivity|]. destruct s as [|z s]; [reflexivity|]. rewrite cls_one.
    destruct s as [|x s].
    + cbn [re_hex_number]. destruct (z =? 48)%N; [|reflexivity]. exists []. split; [|reflexivity].
      econstructor; [apply (w_alt _ _ _ [] []); constructor|constructor].
    + cbn [re_hex_number]. destruct (z =? 48)%N; cbn [andb]; [|reflexivity].
      destruct (first_pairs 2 s) as (l & W & H).
      destruct ((x =? 120)%N) eqn:E1; cbn [orb].
      * assert (E2 : (x =? 88)%N = false) by (apply N.eqb_eq in E1; subst x; reflexivity).
        exists (l ++ []). split; [|rewrite app_nil_r; exact H].
        econstructor; [apply (w_alt _ _ _ [(2, s)] []); [constructor; rewrite cls_one; exact E1|apply w_other; rewrite cls_one; exact E2]|].
        apply aw_cons; [exact W|constructor].
      * destruct ((x =? 88)%N) eqn:E2.
        -- exists (l ++ []). split; [|rewrite app_nil_r; exact H].
           econstructor; [apply (w_alt _ _ _ [] [(2, s)]); [apply w_other; rewrite cls_one; exact E1|constructor; rewrite cls_one; exact E2]|].
           apply aw_cons; [exact W|constructor].
        -- exists []. split; [|reflexivity].
           econstructor; [apply (w_alt _ _ _ [] []); apply w_other; rewrite cls_one; assumption|constructor].
  - destruct s as [|z [|x s]]; try exact I. cbn [re_hex_number]. destruct ((z =? 48)%N && ((x =? 120)%N || (x =? 88)%N)); [|exact I].
    cbn [app List.length skipn]. do 2 f_equal. apply pairs_prefix.
Qed.

(** ** String literals: the only expression that backtracks *)
Notation body := (RAlt (RSeq (RClass false [(92, 92)%N]) (RClass true [(10, 10)%N])) (RClass true [(34, 34)%N])).
Notation quote := (RClass false [(34, 34)%N]).
Lemma all_app r ps qs l m : all_ways r ps l -> all_ways r qs m -> all_ways r (ps ++ qs) (l ++ m).
Proof.
  intros H1 H2. induction H1 as [r|r p ps l1 l2 W A IH]; [exact H2|]. cbn [app]. rewrite <- app_assoc. constructor; [exact W|apply IH, H2].
Qed.
(** the ways to go on after each of [ps], one after the other *)
Lemma star_then a b p ps (F : place -> list place) m :
  ways a p ps -> Forall (later p) ps -> (forall q, In q ps -> ways (RSeq (RStar a) b) q (F q)) -> ways b p m ->
  ways (RSeq (RStar a) b) p (flat_map F ps ++ m).
Proof.
  intros W L HF Wb.
  assert (Ha : exists l, all_ways (RStar a) ps l /\ all_ways b l (flat_map F ps)).
  { clear W L. induction ps as [|q ps IH]; [exists []; split; constructor|].
    destruct IH as (l & A & B); [intros x Hx; apply HF; right; exact Hx|]. pose proof (HF q (or_introl eq_refl)) as Wq. inversion Wq; subst.
    eexists. split; [constructor; eassumption|]. cbn [flat_map]. apply all_app; assumption. }
  destruct Ha as (l & A & B). econstructor; [econstructor; eassumption|]. apply all_app; [exact B|].
  rewrite <- (app_nil_r m). constructor; [exact Wb|constructor].
Qed.
Lemma string_tail_prefix s : is_prefix (re_string_tail s) s.
Proof.
  unfold is_prefix. remember (len s) as n eqn:En. revert s En. induction n as [n IH] using lt_wf_ind. intros s En. destruct s as [|c s]; [exact I|].
  assert (IH1 := IH (len s) ltac:(cbn in En; lia) s eq_refl). cbn [re_string_tail]. destruct (c =? 34)%N; [reflexivity|].
  destruct (c =? 92)%N.
  - destruct s as [|d s].
    + cbn. exact I.
    + assert (IH2 := IH (len s) ltac:(cbn in En; lia) s eq_refl). destruct (d =? 10)%N.
      * destruct (re_string_tail (d :: s)); [|exact I]. cbn [app List.length skipn]. f_equal. exact IH1.
      * destruct (re_string_tail s) as [m|]; [cbn [app List.length skipn]; do 2 f_equal; exact IH2|].
        destruct (re_string_tail (d :: s)); [|exact I]. cbn [app List.length skipn]. f_equal. exact IH1.
  - destruct (re_string_tail s); [|exact I]. cbn [app List.length skipn]. f_equal. exact IH1.
Qed.
Lemma first_tail i s : first (RSeq (RStar body) quote) (i, s)
  match re_string_tail s with Some m => Some (i + len m, skipn (len m) s) | None => None end.
Proof.
  remember (len s) as n eqn:En. revert i s En. induction n as [n IH] using lt_wf_ind. intros i s En.
  destruct s as [|c s].
  { exists (flat_map (fun q => [q]) [] ++ []). split; [|reflexivity]. apply star_then; [|constructor|intros q []|constructor].
    apply (w_alt _ _ _ [] []); [econstructor; constructor|constructor]. }
  destruct (IH (len s) ltac:(cbn in En; lia) (S i) s eq_refl) as (l1 & W1 & H1).
  cbn [re_string_tail]. destruct (c =? 34)%N eqn:E34.
  { apply N.eqb_eq in E34. subst c. exists (flat_map (fun q => [q]) [] ++ [(S i, s)]). split; [|cbn; rewrite Nat.add_1_r; reflexivity].
    apply star_then; [|constructor|intros q []|constructor; reflexivity].
    apply (w_alt _ _ _ [] []); [econstructor; [apply w_other; reflexivity|constructor]|apply w_other; reflexivity]. }
  assert (Wq : ways quote (i, c :: s) []) by (apply w_other; rewrite cls_one; exact E34).
  assert (Wn : ways (RClass true [(34, 34)%N]) (i, c :: s) [(S i, s)]) by (constructor; rewrite cls_not, E34; reflexivity).
  assert (Lone : later (i, c :: s) (S i, s)) by (unfold later; cbn; lia).
  (* only the plain character *)
  assert (Hplain : ways (RSeq (RClass false [(92, 92)%N]) (RClass true [(10, 10)%N])) (i, c :: s) [] ->
    first (RSeq (RStar body) quote) (i, c :: s)
      match (match re_string_tail s with Some t => Some (c :: t) | None => None end) with
      | Some m => Some (i + len m, skipn (len m) (c :: s)) | None => None end).
  { intro We. exists (flat_map (fun _ => l1) [(S i, s)] ++ []). split.
    - apply star_then; [apply (w_alt _ _ _ [] [(S i, s)]); assumption|constructor; [exact Lone|constructor]| |exact Wq].
      intros q [<- |[]]. exact W1.
    - cbn [flat_map]. rewrite !app_nil_r, H1. destruct (re_string_tail s); [|reflexivity]. cbn [List.length skipn]. rewrite Nat.add_succ_r. reflexivity. }
  destruct (c =? 92)%N eqn:E92.
  - assert (Wbs : ways (RClass false [(92, 92)%N]) (i, c :: s) [(S i, s)]) by (constructor; rewrite cls_one; exact E92).
    destruct s as [|d s].
    + apply Hplain. econstructor; [exact Wbs|]. apply (aw_cons _ _ _ [] []); constructor.
    + destruct (d =? 10)%N eqn:E10.
      * apply Hplain. econstructor; [exact Wbs|]. apply (aw_cons _ _ _ [] []); [apply w_other; rewrite cls_not, E10; reflexivity|constructor].
      * destruct (IH (len s) ltac:(cbn in En; lia) (S (S i)) s eq_refl) as (l2 & W2 & H2).
        exists (flat_map (fun q => if Nat.eqb (fst q) (S (S i)) then l2 else l1) [(S (S i), s); (S i, d :: s)] ++ []). split.
        -- apply star_then; [|constructor; [unfold later; cbn; lia|constructor; [exact Lone|constructor]]| |exact Wq].
           ++ apply (w_alt _ _ _ [(S (S i), s)] [(S i, d :: s)]); [|exact Wn]. econstructor; [exact Wbs|].
              apply (aw_cons _ _ _ [(S (S i), s)] []); [constructor; rewrite cls_not, E10; reflexivity|constructor].
           ++ intros q [<- |[<- |[]]]; cbn [fst]; [rewrite Nat.eqb_refl; exact W2|].
              destruct (Nat.eqb_spec (S i) (S (S i))); [lia|exact W1].
        -- cbn [flat_map fst]. rewrite Nat.eqb_refl. destruct (Nat.eqb_spec (S i) (S (S i))); [lia|]. rewrite !app_nil_r.
           destruct (re_string_tail s) as [m|].
           ++ destruct l2 as [|q l2]; [discriminate|]. cbn [app hd_error List.length skipn] in *. rewrite !Nat.add_succ_r. exact H2.
           ++ destruct l2; [|discriminate]. cbn [app]. rewrite H1. destruct (re_string_tail (d :: s)); [|reflexivity].
              cbn [List.length skipn]. rewrite Nat.add_succ_r. reflexivity.
  - apply Hplain. econstructor; [apply w_other; rewrite cls_one; exact E92|constructor].
Qed.
Lemma string_ok : agrees p_string_literal re_string_literal.
Proof.
  eexists. split; [vm_compute; reflexivity|]. intro s. apply finds_start; [reflexivity| |].
  - apply first_char_seq; [reflexivity|]. destruct s as [|c s]; [reflexivity|]. rewrite cls_one. cbn [re_string_literal].
    destruct (c =? 34)%N; [|reflexivity]. pose proof (first_tail 1 s) as F. destruct (re_string_tail s); exact F.
  - destruct s as [|c s]; [exact I|]. cbn [re_string_literal]. destruct (c =? 34)%N; [|exact I].
    pose proof (string_tail_prefix s) as H. destruct (re_string_tail s); [|exact I]. cbn [app List.length skipn]. f_equal. exact H.
Qed.
Lemma bystr_prefix_ok : agrees (lit "^ByStr") (fun s => if starts_with kw_bystr s then Some kw_bystr else None).
Proof.
  eexists. split; [vm_compute; reflexivity|]. intro s. apply finds_start; [reflexivity| |].
  - change kw_bystr with [66; 121; 83; 116; 114]%N.
    do 4 (apply first_char_seq; [reflexivity|]; destruct s as [|? s]; [reflexivity|];
          match goal with |- context [in_class false [(?a, ?a)] ?c] => rewrite (cls_one a c) end; cbn [starts_with];
          match goal with |- context [(?c =? ?k)%N] => rewrite (N.eqb_sym c k); destruct (k =? c)%N; cbn [andb] end; [|reflexivity]).
    destruct s as [|c s]; [exists []; split; [constructor|reflexivity]|].
    pose proof (first_class false [(114, 114)%N] 4 (c :: s)) as F. cbv iota in F. rewrite (cls_one 114 c) in F.
    cbn [starts_with]. rewrite (N.eqb_sym c) in F. destruct (114 =? c)%N; cbn [andb]; exact F.
  - destruct (starts_with kw_bystr s) eqn:E; [|exact I]. change kw_bystr with [66; 121; 83; 116; 114]%N in *.
    do 5 (destruct s as [|? s]; [discriminate E|]; cbn [starts_with] in E; apply andb_true_iff in E; destruct E as [Ec E]; apply N.eqb_eq in Ec; subst).
    reflexivity.
Qed.

(** ** The theorems *)

(** The text [f] takes is what the pattern is found to match. *)
Lemma agrees_here p f s m : agrees p f -> f s = Some m -> exists r, regex_new p = Some r /\ finds r s (Some ([], m)).
Proof. intros (r & Er & H) E. exists r. split; [exact Er|]. specialize (H s). rewrite E in H. exact H. Qed.
Lemma agrees_next p f s : agrees p f -> f s = None -> exists r, regex_new p = Some r /\ finds r s None.
Proof. intros (r & Er & H) E. exists r. split; [exact Er|]. specialize (H s). rewrite E in H. exact H. Qed.

Ltac one ok E := let r := fresh in let Er := fresh in let F := fresh in
    match type of E with _ = Some ?m => destruct (agrees_here _ _ _ _ ok E) as (r & Er & F); apply (fm_here _ _ _ _ r m Er F); reflexivity
    | _ => destruct (agrees_next _ _ _ ok E) as (r & Er & F); apply (fm_next _ _ _ _ r _ Er F); clear r Er F end.
Lemma cascade_ok s : first_match s cascade (option_map fst (other_token s)).
Proof.
  unfold cascade, other_token.
  destruct (re_bystr_with_size s) as [m|] eqn:E.
  { destruct (agrees_here _ _ _ _ bystr_ok E) as (r & Er & F). apply (fm_here s _ _ _ r m Er F). reflexivity. }
  destruct (agrees_next _ _ _ bystr_ok E) as (r & Er & F). apply (fm_next s _ _ _ r _ Er F). clear r Er F E.
  destruct (starts_with kw_bystr s) eqn:E.
  { destruct (agrees_here _ _ s kw_bystr bystr_prefix_ok) as (r & Er & F); [rewrite E; reflexivity|]. apply (fm_here s _ (fun _ => TByStr) _ r kw_bystr Er F). reflexivity. }
  destruct (agrees_next _ _ s bystr_prefix_ok) as (r & Er & F); [rewrite E; reflexivity|]. apply (fm_next s _ _ _ r _ Er F). clear r Er F E.
  destruct (re_hex_number s) as [m|] eqn:E; [one hex_ok E|one hex_ok E]. clear E.
  destruct (re_signed_integer s) as [m|] eqn:E; [one signed_ok E|one signed_ok E]. clear E.
  destruct (re_string_literal s) as [m|] eqn:E; [one string_ok E|one string_ok E]. clear E.
  destruct (re_regular_id s) as [m|] eqn:E; [one regular_id_ok E|one regular_id_ok E]. clear E.
  destruct (re_template_type_id s) as [m|] eqn:E; [one template_ok E|one template_ok E]. clear E.
  destruct (re_custom_type_id s) as [m|] eqn:E; [one custom_type_id_ok E|one custom_type_id_ok E]. clear E.
  destruct (re_special_id s) as [m|] eqn:E; [one special_id_ok E|one special_id_ok E]. constructor.
Qed.

(** All patterns compile, so that no [unwrap] fails, and none has a star over
    something that can be empty. *)
Theorem C64_patterns_compile : forall p f, In (p, f) cascade -> exists r, regex_new p = Some r /\ regular r = true.
Proof.
  intros p f H. unfold cascade in H.
  repeat (destruct H as [[= <- <-]|H]; [eexists; split; [vm_compute; reflexivity|reflexivity]|]). destruct H.
Qed.

(** The meaning of the patterns: a search has one answer, and the ways of an
    expression are the places it matches up to, whatever the preferences. *)
Theorem C64_one_answer : forall r s, regular r = true -> exists o, finds r s o /\ forall o', finds r s o' -> o' = o.
Proof.
  intros r s Hr. destruct (finds_total r s Hr) as (o & F). exists o. split; [exact F|]. intros o' F'. exact (finds_det _ _ _ _ F' F).
Qed.
Theorem C64_ways_are_matches : forall r p, regular r = true -> exists l, ways r p l /\ forall q, In q l <-> matches r p q.
Proof.
  intros r p Hr. destruct (ways_total r p Hr) as (l & W). exists l. split; [exact W|]. intro q. split.
  - exact (proj1 ways_matches_both r p l W q).
  - intro M. exact (matches_ways r p q M l W).
Qed.
Theorem C64_found_is_match : forall r s before m, finds r s (Some (before, m)) ->
  (exists rest, s = before ++ m ++ rest /\ matches r (len before, m ++ rest) (len before + len m, rest))
  /\ forall b t q, s = b ++ t -> len b < len before -> ~ matches r (len b, t) q.
Proof.
  intros r s before m F. inversion F as [b2 m2 rest l E W Hn Eb|]; subst b2 m2. split.
  - exists rest. split; [exact E|]. apply (proj1 ways_matches_both _ _ _ W). left. reflexivity.
  - intros b t q Eb Hlt M. exact (matches_ways _ _ _ M _ (Hn b t Eb Hlt)).
Qed.
Theorem C64_not_found : forall r s, finds r s None -> forall b t q, s = b ++ t -> ~ matches r (len b, t) q.
Proof. intros r s F b t q E M. inversion F as [|Hn]. exact (matches_ways _ _ _ M _ (Hn b t E)). Qed.

(** Which token stands where: punctuation and keywords apart, the first pattern
    of the cascade that is found in the text from there on gives the token; where
    the lexer reports an unknown token no pattern is found. *)
Theorem C64_tokens : forall U text items e i p s, lex U text = (items, e) -> In i items ->
  text = p ++ s -> byte_len p = position (item_start i) ->
  In (item_token i) (map snd punctuation) \/ In (item_token i) (map snd keyword_list)
  \/ first_match s cascade (match item_token i with TUnknown => None | t => Some t end).
Proof.
  intros U text items e i p s E Hi Et Hp.
  destruct (lex_item_at _ _ _ _ _ E Hi) as (p' & s' & ln & b & pr & Hv & Hnb & (c & s0 & Es & Hws) & Hoc & H).
  pose proof (visited_input _ _ _ _ _ _ _ Hv) as Ev. rewrite Et in Ev.
  assert (Hpp : byte_len p = byte_len p') by (rewrite Hp; destruct H as [(t & x & r & _ & _ & _ & ->)|(_ & ->)]; reflexivity).
  pose proof (prefix_same_bytes p p' s s' Ev Hpp) as <-. apply app_inv_head in Ev. rewrite <- Ev in *. clear Hp Hpp Hv Et E Hi Ev s'.
  pose proof (cascade_ok s) as Hc.
  destruct H as [(t & x & r & Hat & _ & _ & ->)|(Hn & ->)]; cbn [item_token item_start fst snd].
  - assert (Hp : plain_token t \/ In t (map snd punctuation) \/ In t (map snd keyword_list)).
    { destruct Hat; try (left; constructor); right; [left|right]; apply in_map_iff; eexists (_, _); split; try eassumption; reflexivity. }
    destruct Hp as [Hp|Hp]; [|tauto]. right. right. destruct (other_complete U s t Hat Hp) as (Ho & _). rewrite Ho in Hc. destruct Hp; exact Hc.
  - right. right. destruct (other_token s) as [[t m]|] eqn:Eo; [|exact Hc]. exfalso.
    assert (Hs : token_at U s t); [|exact (Hn t Hs)]. apply (other_sound U s t m Eo).
    + intros k Hk Hkw. apply in_map_iff in Hkw. destruct Hkw as ([k' t'] & Ek & Hin). cbn in Ek. subst k'. apply (Hn t'). eapply ta_keyword; eassumption.
    + intros r -> . apply (Hn TPlus). apply (ta_punct U (lit "+") TPlus r); [vm_compute; auto|exact I].
    + intros r -> Hr. apply (Hn TUnderscore). apply (ta_punct U (lit "_") TUnderscore r); [vm_compute; tauto|exact Hr].
Qed.

(** Every branch of the cascade is reached; the unclosed escape makes the string
    pattern take its backslash as a plain character. *)
Example C64_witness :
  let '(items, e) := lex U_none (lit "ByStr20 ByStr 0x1a7 -5 'A Foo _x x1 ? ""a\""b\""") in
  e = LEof /\ map item_token items =
    [TByStrWithSize (lit "ByStr20"); TByStr; THexNumber (lit "0x1a"); TNumber (lit "7"); TNumber (lit "-5"); TTemplateIdentifier (lit "'A");
     TCustomIdentifier (lit "Foo"); TSpecialIdentifier (lit "_x"); TIdentifier (lit "x1"); TUnknown; TStringLiteral (lit """a\""b\""")].
Proof. vm_compute. split; reflexivity. Qed.
