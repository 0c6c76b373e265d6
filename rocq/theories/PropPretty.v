(** Property C69: [{:#?}]. *)
From Verif Require Import Chars Lexer Ast Declared Visitor Types Emitter Grammar Cfg Parser Contract DebugText DebugFacts Derive DeriveFacts
  View AstView ResultView AstViewFacts AstViewGood PropCompare Pretty PropParse2.

(** ** Specification *)
(** The text line by line: every part of a value on lines of its own, four
    spaces further in than the value, and followed by a comma; the rest of a line
    at depth [d] starts after [4 * d] spaces. *)
Fixpoint indent (d : nat) : str := match d with O => [] | S d => lit "    " ++ indent d end.
Section Spread.
  Context (quote : str -> str).
  Fixpoint spread (d : nat) (v : dval) : str :=
    let part x := indent (S d) ++ x ++ lit "," ++ newline in
    match v with
    | DUnit n => n
    | DStr s => quote s
    | DNum n => dec n
    | DList [] => lit "[]"
    | DTuple n l => n ++ lit "(" ++ newline ++ flat_map part (map (spread (S d)) l) ++ indent d ++ lit ")"
    | DList l => lit "[" ++ newline ++ flat_map part (map (spread (S d)) l) ++ indent d ++ lit "]"
    | DTup l => lit "(" ++ newline ++ flat_map part (map (spread (S d)) l) ++ indent d ++ lit ")"
    | DStruct n l => n ++ lit " {" ++ newline
        ++ flat_map part (map (fun f => fst f ++ lit ": " ++ spread (S d) (snd f)) l) ++ indent d ++ lit "}"
    end.
End Spread.

(** Undoing the layout: outside quoted texts, a line break with the spaces after
    it goes, as does the comma before a closing bracket; inside braces one space
    is left at either end.  [Bare]: outside quotes; [Quoted]: inside;
    [Escaped]: after a backslash; [Comma]: after a comma and layout; [Opened]:
    after an opening bracket and layout. *)
Inductive mode := Bare | Quoted | Escaped | Comma | Opened.
Definition begin_bare (c : char) : mode :=
  if c =? 34 then Quoted else if c =? 44 then Comma
  else if (c =? 40) || (c =? 91) || (c =? 123) then Opened else Bare.
Definition emit_bare (c : char) : str := if c =? 44 then [] else if c =? 123 then lit "{ " else [c].
Definition is_layout (c : char) : bool := (c =? 10) || (c =? 32).
Definition is_closing (c : char) : bool := (c =? 41) || (c =? 93) || (c =? 125).
Fixpoint one_line (m : mode) (s : str) : str :=
  match s with
  | [] => []
  | c :: r =>
      match m with
      | Bare => emit_bare c ++ one_line (begin_bare c) r
      | Quoted => c :: one_line (if c =? 92 then Escaped else if c =? 34 then Bare else Quoted) r
      | Escaped => c :: one_line Quoted r
      | Comma | Opened =>
          if is_layout c then one_line m r
          else if c =? 125 then lit " }" ++ one_line Bare r
          else if is_closing c then c :: one_line Bare r
          else (match m with Comma => lit ", " | _ => [] end) ++ emit_bare c ++ one_line (begin_bare c) r
      end
  end.

(** ** Proof: the layout *)
Definition no_newline (s : str) : Prop := ~ In 10 s.
Ltac nonl := let E := fresh "E" in intro E; cbn in E; repeat (destruct E as [E|E]; [discriminate E|]); destruct E.
Lemma pad_line s : no_newline s -> pad false s = s.
Proof.
  induction s as [|c s IH]; intro H; [reflexivity|]. cbn [pad app]. destruct (N.eqb_spec c 10) as [->|_]; [destruct H; left; reflexivity|].
  rewrite IH; [reflexivity|]. intro G. apply H. right. exact G.
Qed.
Lemma pad_line_app s t : no_newline s -> pad false (s ++ t) = s ++ pad false t.
Proof.
  induction s as [|c s IH]; intro H; [reflexivity|]. cbn [pad app]. destruct (N.eqb_spec c 10) as [->|_]; [destruct H; left; reflexivity|].
  rewrite IH; [reflexivity|]. intro G. apply H. right. exact G.
Qed.
Lemma pad_fresh s : s <> [] -> pad true s = lit "    " ++ pad false s.
Proof. destruct s as [|c s]; [congruence|reflexivity]. Qed.
Lemma alnum_ne c : alnum c = true -> c <> 10 /\ c <> 34 /\ c <> 44 /\ c <> 40 /\ c <> 91 /\ c <> 123 /\ c <> 32 /\ c <> 41 /\ c <> 93 /\ c <> 125.
Proof.
  unfold alnum. intro H. repeat match goal with H : _ || _ = true |- _ => apply orb_prop in H; destruct H as [H|H] end;
    apply range_ne in H; repeat split; lia.
Qed.
Lemma label_ne' c : label c = true -> c <> 10 /\ c <> 34 /\ c <> 44 /\ c <> 40 /\ c <> 91 /\ c <> 123 /\ c <> 32 /\ c <> 41 /\ c <> 93 /\ c <> 125.
Proof.
  unfold label. intro H. apply orb_prop in H. destruct H as [H|H]; [apply range_ne in H|apply N.eqb_eq in H]; repeat split; lia.
Qed.
Lemma name_line n : good_name n -> no_newline n.
Proof. intros [_ H] E. rewrite Forall_forall in H. apply H, alnum_ne in E. tauto. Qed.
Lemma label_line n : Forall (fun c => label c = true) n -> no_newline n.
Proof. intros H E. rewrite Forall_forall in H. apply H, label_ne' in E. tauto. Qed.
Lemma digits_line n : no_newline (dec n).
Proof. intro E. pose proof (dec_digits n) as H. rewrite Forall_forall in H. apply H in E. discriminate E. Qed.

Lemma indent_line d : no_newline (indent d).
Proof. induction d as [|d IH]; intro E; [destruct E|]. cbn [indent] in E. rewrite in_app_iff in E. destruct E as [E|E]; [cbn in E; intuition discriminate|exact (IH E)]. Qed.

Section Layout.
  Context (quote : str -> str).
  Context (quote_line : forall s, no_newline (quote s)).
  Notation spread := (spread quote).
  Notation pretty := (pretty quote).

  Definition shifts (d : nat) (v : dval) : Prop := forall t, pad false (spread d v ++ t) = spread (S d) v ++ pad false t.
  Definition part (d : nat) (x : str) : str := indent (S d) ++ x ++ lit "," ++ newline.
  (** Inside the adapter. *)
  Lemma pad_part d (x x' : str) t : (forall t, pad false (x ++ t) = x' ++ pad false t) ->
    pad true (part d x ++ t) = part (S d) x' ++ pad true t.
  Proof.
    intro H. unfold part. rewrite pad_fresh by (cbn; discriminate). rewrite <- !app_assoc. rewrite pad_line_app by apply indent_line.
    rewrite H. change (lit "," ++ newline ++ t) with (44 :: 10 :: t). cbn [pad app]. change (44 =? 10) with false. change (10 =? 10) with true. cbn [app].
    change (indent (S (S d))) with (lit "    " ++ indent (S d)). rewrite <- ?app_assoc. reflexivity.
  Qed.
  Lemma pad_parts d (c : char) t : (c =? 10) = false -> forall l l',
    Forall2 (fun x x' => forall t, pad false (x ++ t) = x' ++ pad false t) l l' ->
    pad true (flat_map (part d) l ++ indent d ++ c :: t) = flat_map (part (S d)) l' ++ indent (S d) ++ c :: pad false t.
  Proof.
    intros Hc l l' H. induction H as [|x x' l l' Hx _ IH].
    - cbn [flat_map app]. rewrite pad_fresh by (destruct d; cbn; discriminate). rewrite pad_line_app by apply indent_line.
      cbn [pad app]. rewrite Hc. cbn [indent]. rewrite <- ?app_assoc. reflexivity.
    - cbn [flat_map]. rewrite <- !app_assoc. rewrite (pad_part d x x' _ Hx), IH. rewrite <- ?app_assoc. reflexivity.
  Qed.
  Lemma pad_open b (w : str) : no_newline w -> pad false (w ++ newline ++ b) = w ++ newline ++ pad true b.
  Proof. intro H. rewrite pad_line_app by exact H. cbn [newline app pad]. reflexivity. Qed.

  Lemma shifts_all v : good v -> forall d, shifts d v.
  Proof.
    induction v as [n|n l IH|n l IH|s|n|l IH|l IH] using dval_ind'; intros Hg d t; inversion Hg; subst; clear Hg.
    - cbn [PropPretty.spread]. apply pad_line_app, name_line. assumption.
    - assert (F : Forall2 (fun x x' => forall t, pad false (x ++ t) = x' ++ pad false t) (map (spread (S d)) l) (map (spread (S (S d))) l)).
      { clear -IH H2. induction IH as [|v l Hv _ IHl]; cbn [map]; constructor; inversion H2; subst; [intro; apply Hv; assumption|auto]. }
      cbn [PropPretty.spread]. fold (part d) (part (S d)). rewrite <- !app_assoc. rewrite pad_line_app by (apply name_line; assumption). f_equal.
      rewrite pad_open by nonl. do 2 f_equal.
      apply (pad_parts d 41 t eq_refl), F.
    - assert (F : Forall2 (fun x x' => forall t, pad false (x ++ t) = x' ++ pad false t)
        (map (fun f => fst f ++ lit ": " ++ spread (S d) (snd f)) l) (map (fun f => fst f ++ lit ": " ++ spread (S (S d)) (snd f)) l)).
      { clear -IH H2. induction IH as [|v l Hv _ IHl]; cbn [map]; constructor; inversion H2 as [|? ? [Hl Hg] H4]; subst; [|auto].
        intro t. rewrite <- !app_assoc. rewrite pad_line_app by (apply label_line; assumption). f_equal.
        rewrite pad_line_app by nonl. f_equal. apply Hv, Hg. }
      cbn [PropPretty.spread]. fold (part d) (part (S d)). rewrite <- !app_assoc. rewrite pad_line_app by (apply name_line; assumption). f_equal.
      rewrite pad_open by nonl. do 2 f_equal. apply (pad_parts d 125 t eq_refl), F.
    - cbn [PropPretty.spread]. apply pad_line_app, quote_line.
    - cbn [PropPretty.spread]. apply pad_line_app, digits_line.
    - destruct l as [|v0 l0]; [reflexivity|].
      assert (F : Forall2 (fun x x' => forall t, pad false (x ++ t) = x' ++ pad false t) (map (spread (S d)) (v0 :: l0)) (map (spread (S (S d))) (v0 :: l0))).
      { clear -IH H0. induction IH as [|v l Hv _ IHl]; cbn [map]; constructor; inversion H0; subst; [intro; apply Hv; assumption|auto]. }
      remember (v0 :: l0) as l eqn:El. assert (E : forall d, spread d (DList l) = lit "[" ++ newline ++ flat_map (part d) (map (spread (S d)) l) ++ indent d ++ lit "]") by (intro; subst l; reflexivity).
      rewrite !E. rewrite <- !app_assoc. rewrite pad_open by nonl. do 2 f_equal. apply (pad_parts d 93 t eq_refl), F.
    - assert (F : Forall2 (fun x x' => forall t, pad false (x ++ t) = x' ++ pad false t) (map (spread (S d)) l) (map (spread (S (S d))) l)).
      { clear -IH H0. induction IH as [|v l Hv _ IHl]; cbn [map]; constructor; inversion H0; subst; [intro; apply Hv; assumption|auto]. }
      cbn [PropPretty.spread]. fold (part d) (part (S d)). rewrite <- !app_assoc.
      rewrite pad_open by nonl. do 2 f_equal. apply (pad_parts d 41 t eq_refl), F.
  Qed.

  Lemma pad_value (x x' : str) : (forall t, pad false (x ++ t) = x' ++ pad false t) -> pad true (x ++ lit "," ++ newline) = indent 1 ++ x' ++ lit "," ++ newline.
  Proof. intro H. rewrite pad_fresh by (destruct x; discriminate). rewrite H. reflexivity. Qed.
  Lemma parts_values l : Forall (fun v => good v -> pretty v = spread 0 v) l -> Forall good l ->
    flat_map (fun x => pad true (pretty x ++ lit "," ++ newline)) l = flat_map (part 0) (map (spread 1) l).
  Proof.
    intros H Hg. induction H as [|v l Hv _ IH]; [reflexivity|]. inversion Hg; subst. cbn [flat_map map]. rewrite Hv by assumption. f_equal; [|auto].
    apply pad_value, shifts_all. assumption.
  Qed.
  Theorem pretty_spread v : good v -> pretty v = spread 0 v.
  Proof.
    induction v as [n|n l IH|n l IH|s|n|l IH|l IH] using dval_ind'; intro Hg; inversion Hg; subst; clear Hg; try reflexivity.
    - cbn [Pretty.pretty PropPretty.spread indent app]. fold (part 0). rewrite parts_values by assumption. reflexivity.
    - cbn [Pretty.pretty PropPretty.spread indent app]. do 3 f_equal. fold (part 0). f_equal.
      induction IH as [|v l Hv _ IHl]; [reflexivity|]. inversion H2 as [|? ? [Hl Hg] H4]; subst. cbn [flat_map map]. f_equal; [|auto].
      rewrite Hv by assumption. replace (fst v ++ lit ": " ++ spread 0 (snd v) ++ lit "," ++ newline) with ((fst v ++ lit ": " ++ spread 0 (snd v)) ++ lit "," ++ newline)
        by (rewrite <- !app_assoc; reflexivity).
      apply pad_value. intro t.
      rewrite <- !app_assoc. rewrite pad_line_app by (apply label_line; assumption). f_equal.
      rewrite pad_line_app by nonl. f_equal. apply shifts_all, Hg.
    - destruct l as [|v0 l0]; [reflexivity|]. cbn [Pretty.pretty PropPretty.spread indent app]. fold (part 0). rewrite parts_values by assumption. reflexivity.
    - cbn [Pretty.pretty PropPretty.spread indent app]. fold (part 0). rewrite parts_values by assumption. reflexivity.
  Qed.
End Layout.

(** ** Proof: undoing the layout *)
Lemma bare_char c r : c <> 34 -> c <> 44 -> c <> 40 -> c <> 91 -> c <> 123 -> one_line Bare (c :: r) = c :: one_line Bare r.
Proof.
  intros H1 H2 H3 H4 H5. cbn [one_line]. unfold emit_bare, begin_bare.
  rewrite (proj2 (N.eqb_neq c 34) H1), (proj2 (N.eqb_neq c 44) H2), (proj2 (N.eqb_neq c 40) H3), (proj2 (N.eqb_neq c 91) H4), (proj2 (N.eqb_neq c 123) H5).
  reflexivity.
Qed.
Lemma bare_word n r : Forall (fun c => alnum c = true \/ label c = true) n -> one_line Bare (n ++ r) = n ++ one_line Bare r.
Proof.
  induction 1 as [|c n Hc _ IH]; [reflexivity|]. cbn [app].
  rewrite bare_char; [rewrite IH; reflexivity|..]; destruct Hc as [Hc|Hc]; (apply alnum_ne in Hc || apply label_ne' in Hc); tauto.
Qed.
Lemma digit_alnum c : digit c = true -> alnum c = true.
Proof. unfold alnum, digit. intros ->. apply orb_true_r. Qed.

Lemma skip_indent m d r : (m = Comma \/ m = Opened) -> one_line m (indent d ++ r) = one_line m r.
Proof. intro H. induction d as [|d IH]; [reflexivity|]. destruct H as [-> | ->]; cbn [indent]; exact IH. Qed.
Lemma skip_newline m r : (m = Comma \/ m = Opened) -> one_line m (newline ++ r) = one_line m r.
Proof. intros [-> | ->]; reflexivity. Qed.

(** What a part begins with does not belong to the layout. *)
Definition plain (s : str) : Prop := match s with [] => False | c :: _ => c <> 10 /\ c <> 32 /\ c <> 41 /\ c <> 93 /\ c <> 125 end.
Lemma after_layout m s : (m = Comma \/ m = Opened) -> plain s ->
  one_line m s = (match m with Comma => lit ", " | _ => [] end) ++ one_line Bare s.
Proof.
  intros Hm H. destruct s as [|c r]; [destruct H|]. destruct H as (H1 & H2 & H3 & H4 & H5).
  assert (E1 : is_layout c = false) by (unfold is_layout; rewrite (proj2 (N.eqb_neq c 10) H1), (proj2 (N.eqb_neq c 32) H2); reflexivity).
  assert (E2 : is_closing c = false)
    by (unfold is_closing; rewrite (proj2 (N.eqb_neq c 41) H3), (proj2 (N.eqb_neq c 93) H4), (proj2 (N.eqb_neq c 125) H5); reflexivity).
  destruct Hm as [-> | ->]; cbn [one_line]; rewrite E1, E2, (proj2 (N.eqb_neq c 125) H5); reflexivity.
Qed.

Section Undo.
  Context (quote : str -> str).
  Context (quote_head : forall a, exists r, quote a = 34 :: r).
  Context (quote_skip : forall a r, one_line Bare (quote a ++ r) = quote a ++ one_line Bare r).
  Notation spread := (spread quote).
  Notation render := (render quote).

  Definition undoes (x y : str) : Prop := plain x /\ forall r, one_line Bare (x ++ r) = y ++ one_line Bare r.
  (** The parts after the first, up to the closing bracket. *)
  Lemma undo_rest d (c : char) r l l' : (c = 41 \/ c = 93 \/ c = 125) -> Forall2 undoes l l' ->
    one_line Comma (newline ++ flat_map (part d) l ++ indent d ++ c :: r)
    = flat_map (fun y => lit ", " ++ y) l' ++ (if c =? 125 then lit " }" else [c]) ++ one_line Bare r.
  Proof.
    intros Hc H. rewrite skip_newline by auto. induction H as [|x y l l' [Hp Hx] _ IH].
    - cbn [flat_map app]. rewrite skip_indent by auto. destruct Hc as [-> |[-> | ->]]; reflexivity.
    - cbn [flat_map]. unfold part at 1. rewrite <- !app_assoc. rewrite skip_indent by auto.
      rewrite after_layout; [|auto|destruct x; [destruct Hp|exact Hp]]. rewrite Hx.
      f_equal. f_equal.
      change (one_line Bare (lit "," ++ ?k)) with (one_line Comma k).
      rewrite skip_newline by auto. rewrite IH. rewrite <- ?app_assoc. reflexivity.
  Qed.
  Lemma commas_flat y l : commas (y :: l) = y ++ flat_map (fun y => lit ", " ++ y) l.
  Proof.
    revert y. induction l as [|x l IH]; intro y; [reflexivity|].
    change (commas (y :: x :: l)) with (y ++ lit ", " ++ commas (x :: l)). rewrite IH. cbn [flat_map]. rewrite <- !app_assoc. reflexivity.
  Qed.
  Lemma undo_parts d (c : char) r l l' : (c = 41 \/ c = 93 \/ c = 125) -> Forall2 undoes l l' ->
    one_line Opened (newline ++ flat_map (part d) l ++ indent d ++ c :: r)
    = commas l' ++ (if c =? 125 then lit " }" else [c]) ++ one_line Bare r.
  Proof.
    intros Hc H. rewrite skip_newline by auto. destruct H as [|x y l l' [Hp Hx] H].
    - cbn [flat_map app commas]. rewrite skip_indent by auto. destruct Hc as [-> |[-> | ->]]; reflexivity.
    - cbn [flat_map]. unfold part at 1. rewrite <- !app_assoc. rewrite skip_indent by auto.
      rewrite after_layout; [|auto|destruct x; [destruct Hp|exact Hp]]. rewrite Hx. cbn [app].
      change (one_line Bare (lit "," ++ ?k)) with (one_line Comma k).
      rewrite (undo_rest d c r l l' Hc H). rewrite commas_flat, <- !app_assoc. reflexivity.
  Qed.
  Lemma name_words n : good_name n -> Forall (fun c => alnum c = true \/ label c = true) n.
  Proof. intros [_ H]. eapply Forall_impl; [|exact H]. auto. Qed.
  Lemma plain_name n s : good_name n -> plain (n ++ s).
  Proof. intros [H1 H2]. destruct n as [|c n]; [destruct H1|]. inversion H2; subst. cbn. apply alnum_ne in H3. tauto. Qed.

  Lemma undo_all v : good v -> forall d, undoes (spread d v) (render v).
  Proof.
    induction v as [n|n l IH|n l IH|s|n|l IH|l IH] using dval_ind'; intros Hg d; inversion Hg; subst; clear Hg.
    - split; [rewrite <- (app_nil_r n); apply plain_name; assumption|]. intro r. apply bare_word, name_words. assumption.
    - split; [apply plain_name; assumption|]. intro r. cbn [PropPretty.spread Derive.render]. fold (part d). rewrite <- !app_assoc.
      rewrite bare_word by (apply name_words; assumption). f_equal.
      change (one_line Bare (lit "(" ++ ?k)) with (40 :: one_line Opened k). change (lit "(" ++ ?k) with (40 :: k). f_equal.
      change (lit ")" ++ ?k) with (41 :: k). rewrite (undo_parts d 41 r _ (map render l)); [reflexivity|auto|].
      clear -IH H2. induction IH as [|v l Hv _ IHl]; cbn [map]; constructor; inversion H2; subst; auto.
    - split; [apply plain_name; assumption|]. intro r. cbn [PropPretty.spread Derive.render]. fold (part d). rewrite <- !app_assoc.
      rewrite bare_word by (apply name_words; assumption). f_equal.
      change (one_line Bare (lit " {" ++ ?k)) with (lit " { " ++ one_line Opened k). f_equal.
      change (lit "}" ++ ?k) with (125 :: k). rewrite (undo_parts d 125 r _ (map (fun f => fst f ++ lit ": " ++ render (snd f)) l)); [reflexivity|auto|].
      clear -IH H2. induction IH as [|v l Hv _ IHl]; cbn [map]; constructor; inversion H2 as [|? ? [Hl Hg] H4]; subst; auto.
      split; [destruct (fst v) as [|c n]; [cbn; repeat split; discriminate|]; inversion Hl; subst; cbn; apply label_ne' in H1; tauto|].
      intro r. rewrite <- !app_assoc. rewrite bare_word by (eapply Forall_impl; [|exact Hl]; auto). f_equal.
      change (one_line Bare (lit ": " ++ ?k)) with (lit ": " ++ one_line Bare k). f_equal. apply Hv, Hg.
    - split; [|intro r; apply quote_skip]. cbn [PropPretty.spread]. destruct (quote_head s) as (r & ->). cbn. repeat split; discriminate.
    - split.
      + cbn [PropPretty.spread]. destruct (dec_cons n) as (c & r & -> & H). cbn. apply digit_alnum, alnum_ne in H. tauto.
      + intro r. apply bare_word. eapply Forall_impl; [|apply dec_digits]. intros c Hc. left. apply digit_alnum, Hc.
    - assert (F : Forall2 undoes (map (spread (S d)) l) (map render l))
        by (clear -IH H0; induction IH as [|v l Hv _ IHl]; cbn [map]; constructor; inversion H0; subst; auto).
      split; [destruct l; cbn; repeat split; discriminate|]. intro r. destruct l as [|v0 l0]; [reflexivity|]. remember (v0 :: l0) as l eqn:El.
      assert (E : spread d (DList l) = lit "[" ++ newline ++ flat_map (part d) (map (spread (S d)) l) ++ indent d ++ lit "]") by (subst l; reflexivity).
      rewrite E. cbn [Derive.render]. rewrite <- !app_assoc.
      change (one_line Bare (lit "[" ++ ?k)) with (91 :: one_line Opened k). change (lit "[" ++ ?k) with (91 :: k). f_equal.
      change (lit "]" ++ ?k) with (93 :: k). rewrite (undo_parts d 93 r _ (map render l)); [reflexivity|auto|exact F].
    - split; [cbn; repeat split; discriminate|]. intro r. cbn [PropPretty.spread Derive.render]. fold (part d). rewrite <- !app_assoc.
      change (one_line Bare (lit "(" ++ ?k)) with (40 :: one_line Opened k). change (lit "(" ++ ?k) with (40 :: k). f_equal.
      change (lit ")" ++ ?k) with (41 :: k). rewrite (undo_parts d 41 r _ (map render l)); [reflexivity|auto|].
      clear -IH H0. induction IH as [|v l Hv _ IHl]; cbn [map]; constructor; inversion H0; subst; auto.
  Qed.
End Undo.

(** ** Quoted texts *)
Section Values.
  Context (printable : char -> bool).
  Notation dstr := (debug_str printable).

  Lemma quoted_run w r : Forall (fun c => c <> 34 /\ c <> 92) w -> one_line Quoted (w ++ r) = w ++ one_line Quoted r.
  Proof.
    induction 1 as [|c w [H1 H2] _ IH]; [reflexivity|]. cbn [app one_line].
    rewrite (proj2 (N.eqb_neq c 92) H2), (proj2 (N.eqb_neq c 34) H1), IH. reflexivity.
  Qed.
  Lemma hexdigit_ne c : hexdigit c = true -> c <> 10 /\ c <> 34 /\ c <> 92.
  Proof. unfold hexdigit. intro H. apply orb_prop in H. destruct H as [H|H]; apply range_ne in H; repeat split; lia. Qed.
  Lemma escape_line c : no_newline (escape_char printable c).
  Proof.
    unfold escape_char. destruct (c =? 0); [nonl|]. destruct (c =? 9); [nonl|]. destruct (c =? 13); [nonl|].
    destruct (N.eqb_spec c 10) as [|H4]; [nonl|]. destruct (c =? 34); [nonl|]. destruct (c =? 92); [nonl|].
    destruct (if c <? 128 then _ else _); [intros [E|[]]; congruence|].
    intro E. rewrite !in_app_iff in E. destruct E as [E|[E|E]]; [cbn in E; intuition discriminate| |cbn in E; intuition discriminate].
    pose proof (hex_chars_digits (N.to_hex_uint c)) as H. rewrite Forall_forall in H. apply H, hexdigit_ne in E. tauto.
  Qed.
  Lemma dstr_line s : no_newline (dstr s).
  Proof.
    unfold debug_str. intro E. rewrite !in_app_iff in E. destruct E as [E|[E|E]]; [cbn in E; intuition discriminate| |cbn in E; intuition discriminate].
    apply in_flat_map in E. destruct E as (c & _ & E). exact (escape_line c E).
  Qed.
  Lemma escape_skip c r : one_line Quoted (escape_char printable c ++ r) = escape_char printable c ++ one_line Quoted r.
  Proof.
    unfold escape_char. destruct (c =? 0); [reflexivity|]. destruct (c =? 9); [reflexivity|]. destruct (c =? 13); [reflexivity|].
    destruct (c =? 10); [reflexivity|]. destruct (N.eqb_spec c 34) as [|H5]; [reflexivity|]. destruct (N.eqb_spec c 92) as [|H6]; [reflexivity|].
    destruct (if c <? 128 then _ else _); [apply quoted_run; constructor; [auto|constructor]|].
    rewrite <- !app_assoc. change (one_line Quoted ([92; 117; 123] ++ ?k)) with ([92; 117; 123] ++ one_line Quoted k). f_equal.
    rewrite quoted_run; [f_equal; reflexivity|]. eapply Forall_impl; [|apply (hex_chars_digits (N.to_hex_uint c))].
    intros x Hx. apply hexdigit_ne in Hx. tauto.
  Qed.
  Lemma dstr_skip s r : one_line Bare (dstr s ++ r) = dstr s ++ one_line Bare r.
  Proof.
    unfold debug_str. rewrite <- !app_assoc. change (one_line Bare ([34] ++ ?k)) with ([34] ++ one_line Quoted k). f_equal.
    induction s as [|c s IH]; [reflexivity|]. cbn [flat_map]. rewrite <- !app_assoc. rewrite escape_skip, IH. reflexivity.
  Qed.

  Lemma undo_pretty v : good v -> one_line Bare (pretty dstr v) = render dstr v.
  Proof.
    intro Hg. rewrite (pretty_spread dstr dstr_line v Hg).
    pose proof (proj2 (undo_all dstr (dstr_head printable) dstr_skip v Hg 0%nat) []) as H. rewrite !app_nil_r in H. exact H.
  Qed.
  Lemma pretty_inj v v' : good v -> good v' -> pretty dstr v = pretty dstr v' -> v = v'.
  Proof.
    intros Hg Hg' E. apply (shown_inj printable v v' Hg Hg'). rewrite <- !undo_pretty by assumption. rewrite E. reflexivity.
  Qed.

  Lemma good_token t : good (see_token t).
  Proof. destruct t; cbn [see_token]; repeat constructor. Qed.
  Lemma good_position p : good (see_position p).
  Proof. exact (good_pos p). Qed.

  (** ** Theorems *)
  (** [format!("{:#?}", _)] of a contract, a token, a position and a node of the
      syntax tree. *)
  Definition pretty_contract (c : contract) : str := pretty dstr (see_contract c).
  Definition pretty_token (t : token) : str := pretty dstr (see_token t).
  Definition pretty_position (p : source_position) : str := pretty dstr (see_position p).
  Definition pretty_node (a : anynode) : str := pretty dstr (shown (view_node a)).

  (** The layout. *)
  Theorem C69_layout :
    (forall c, pretty_contract c = spread dstr 0 (see_contract c))
    /\ (forall t, pretty_token t = spread dstr 0 (see_token t))
    /\ (forall p, pretty_position p = spread dstr 0 (see_position p))
    /\ (forall a, pretty_node a = spread dstr 0 (shown (view_node a))).
  Proof.
    split; [|split; [|split]].
    - intro c. apply pretty_spread; [exact dstr_line|apply good_contract].
    - intro t. apply pretty_spread; [exact dstr_line|apply good_token].
    - intro p. apply pretty_spread; [exact dstr_line|apply good_position].
    - intro a. apply pretty_spread; [exact dstr_line|apply good_node].
  Qed.
  (** Undoing it gives the text of [{:?}] (C51, C67). *)
  Theorem C69_same_text :
    (forall c, one_line Bare (pretty_contract c) = debug_contract printable c)
    /\ (forall t, one_line Bare (pretty_token t) = debug_token printable t)
    /\ (forall p, one_line Bare (pretty_position p) = debug_position p)
    /\ (forall a, one_line Bare (pretty_node a) = node_debug printable a).
  Proof.
    split; [|split; [|split]].
    - intro c. unfold pretty_contract. rewrite undo_pretty by apply good_contract. symmetry. apply contract_render.
    - intro t. unfold pretty_token. rewrite undo_pretty by apply good_token. symmetry. apply token_render.
    - intro p. unfold pretty_position. rewrite undo_pretty by apply good_position. symmetry. apply position_render.
    - intro a. unfold pretty_node. rewrite undo_pretty by apply good_node. reflexivity.
  Qed.
  (** Nothing is lost. *)
  Theorem C69_shows_everything :
    (forall c c', pretty_contract c = pretty_contract c' <-> c = c')
    /\ (forall a a', node_type a = node_type a' -> (pretty_node a = pretty_node a' <-> a = a')).
  Proof.
    split.
    - intros c c'. split; [|intros ->; reflexivity]. intro H. apply see_contract_inj. exact (pretty_inj _ _ (good_contract c) (good_contract c') H).
    - intros a a' Ht. split; [|intros ->; reflexivity]. intro H. apply shown_node_inj; [exact Ht|].
      exact (pretty_inj _ _ (good_node a) (good_node a') H).
  Qed.
End Values.

(** A contract as the tests of the crate print it when they fail. *)
Fixpoint unlines (l : list str) : str := match l with [] => [] | [x] => x | x :: r => x ++ newline ++ unlines r end.
Example C69_witness : exists c,
  from_str U_none no_debug (lit "scilla_version 0 library L contract C(a: Map Uint32 ByStr7) transition T() end"%string) = RValue c
  /\ pretty_contract all_printable c = unlines (map lit [
      "Contract {"%string;
      "    name: ""C"","%string;
      "    init_params: FieldList("%string;
      "        ["%string;
      "            Field {"%string;
      "                name: ""a"","%string;
      "                type: Map("%string;
      "                    Uint32,"%string;
      "                    ByStrX("%string;
      "                        7,"%string;
      "                    ),"%string;
      "                ),"%string;
      "            },"%string;
      "        ],"%string;
      "    ),"%string;
      "    fields: FieldList("%string;
      "        [],"%string;
      "    ),"%string;
      "    transitions: TransitionList("%string;
      "        ["%string;
      "            Transition {"%string;
      "                name: ""T"","%string;
      "                params: FieldList("%string;
      "                    [],"%string;
      "                ),"%string;
      "            },"%string;
      "        ],"%string;
      "    ),"%string;
      "}"%string]).
Proof. eexists. split; vm_compute; reflexivity. Qed.
