(** Proofs for C51: the model's [{:?}] texts are those of [derive(Debug)], and
    these are prefix codes. *)
From Coq Require Import Hexadecimal HexadecimalN HexadecimalPos.
From Verif Require Import Chars Lexer Types Emitter DebugText DebugFacts Derive.

Lemma commas_join l : commas l = join (lit ", ") l.
Proof.
  induction l as [|x r IH]; [reflexivity|]. cbn [commas join]. rewrite IH. destruct r; [apply app_nil_r|reflexivity].
Qed.

Section Code.
  Context (quote : str -> str).
  Context (quote_code : forall a b r s, quote a ++ r = quote b ++ s -> a = b /\ r = s).
  Context (quote_head : forall a, exists r, quote a = 34 :: r).
  Notation render := (render quote).

  Definition alnum (c : char) : bool := in_range 65 90 c || in_range 97 122 c || in_range 48 57 c.
  Definition alpha (c : char) : bool := in_range 65 90 c || in_range 97 122 c.
  Definition good_name (n : str) : Prop :=
    match n with [] => False | c :: _ => alpha c = true end /\ Forall (fun c => alnum c = true) n.
  Definition label (c : char) : bool := in_range 97 122 c || (c =? 95).

  (** Values that are printed unambiguously: names are words. *)
  Inductive good : dval -> Prop :=
  | g_unit n : good_name n -> good (DUnit n)
  | g_tuple n l : good_name n -> Forall good l -> good (DTuple n l)
  | g_struct n l : good_name n -> Forall (fun f => Forall (fun c => label c = true) (fst f) /\ good (snd f)) l -> good (DStruct n l)
  | g_str s : good (DStr s)
  | g_num n : good (DNum n)
  | g_list l : Forall good l -> good (DList l)
  | g_tup l : Forall good l -> good (DTup l).

  Lemma dval_ind' (P : dval -> Prop) :
    (forall n, P (DUnit n)) -> (forall n l, Forall P l -> P (DTuple n l)) ->
    (forall n l, Forall (fun f => P (snd f)) l -> P (DStruct n l)) ->
    (forall s, P (DStr s)) -> (forall n, P (DNum n)) -> (forall l, Forall P l -> P (DList l)) ->
    (forall l, Forall P l -> P (DTup l)) -> forall v, P v.
  Proof.
    intros H1 H2 H3 H4 H5 H6 H7. fix IH 1. intro v.
    assert (L : forall l, Forall P l) by (clear v; fix L 1; intros [|x r]; constructor; [apply IH|apply L]).
    assert (F : forall l, Forall (fun f : str * dval => P (snd f)) l)
      by (clear v L; fix F 1; intros [|x r]; constructor; [apply IH|apply F]).
    destruct v; [apply H1|apply H2, L|apply H3, F|apply H4|apply H5|apply H6, L|apply H7, L].
  Qed.

  (** What may follow a value. *)
  Definition after (r : str) : Prop :=
    match r with
    | [] => True
    | c :: r' => alnum c = false /\ c <> 40 /\ (c = 32 -> match r' with 123 :: _ => False | _ => True end)
    end.
  Definition code (v : dval) : Prop := forall v' r r', good v' -> after r -> after r' ->
    render v ++ r = render v' ++ r' -> v = v' /\ r = r'.

  (** The first character of a value. *)
  Definition starts (v : dval) (c : char) : Prop :=
    match v with
    | DUnit _ | DTuple _ _ | DStruct _ _ => alpha c = true
    | DStr _ => c = 34
    | DNum _ => digit c = true
    | DList _ => c = 91
    | DTup _ => c = 40
    end.
  Lemma dec_cons n : exists c r, dec n = c :: r /\ digit c = true.
  Proof.
    pose proof (dec_digits n) as H. destruct (dec n) as [|c r] eqn:E; [|inversion H; subst; eauto].
    exfalso. assert (dec n = [] -> False) as X; [|exact (X E)]. clear. unfold dec. destruct (N.to_uint n) eqn:E; try discriminate.
    intros _. destruct n as [|p]; [discriminate|]. cbn in E. pose proof (DecimalPos.Unsigned.of_to p) as H. rewrite E in H. discriminate.
  Qed.
  Lemma render_cons v : good v -> exists c r, render v = c :: r /\ starts v c.
  Proof.
    intro H. destruct H as [n [Hn _]|n l [Hn _] _|n l [Hn _] _|s|n|l _|l _]; cbn [Derive.render starts].
    - destruct n as [|c n]; [destruct Hn|]. cbn. eauto.
    - destruct n as [|c n]; [destruct Hn|]. cbn. eauto.
    - destruct n as [|c n]; [destruct Hn|]. cbn. eauto.
    - destruct (quote_head s) as (r & ->). eauto.
    - destruct (dec_cons n) as (c & r & -> & H). eauto.
    - cbn. eauto.
    - cbn. eauto.
  Qed.

  Lemma range_ne a b c : in_range a b c = true -> a <= c /\ c <= b.
  Proof. unfold in_range. intro H. apply andb_prop in H. destruct H. split; apply N.leb_le; assumption. Qed.
  Lemma starts_bounds v c : starts v c -> c <> 93 /\ c <> 41 /\ c <> 125 /\ c <> 32.
  Proof.
    destruct v; cbn [starts]; intro H; subst; try (repeat split; discriminate);
      unfold alpha, digit in H; repeat match goal with H : _ || _ = true |- _ => apply orb_prop in H; destruct H as [H|H] end;
      apply range_ne in H; lia.
  Qed.

  (** Lists of values up to a closing character. *)
  Lemma list_code (close : char) l : (close = 41 \/ close = 93) -> Forall code l -> Forall good l ->
    forall l' r r', Forall good l' -> commas (map render l) ++ close :: r = commas (map render l') ++ close :: r' -> l = l' /\ r = r'.
  Proof.
    intros Hc Hl Hg. assert (Ac : forall r, after (close :: r)).
    { intro r. destruct Hc as [-> | ->]; (split; [reflexivity|]); split; discriminate. }
    assert (Nc : forall v c, starts v c -> c <> close) by (intros v c H; apply starts_bounds in H; destruct Hc as [-> | ->]; tauto).
    assert (Am : forall (x : dval) m r, after (match m with [] => [] | _ => lit ", " ++ commas (map render m) end ++ close :: r)).
    { intros x [|y m] r; [apply Ac|]. split; [reflexivity|]. split; discriminate. }
    assert (N44 : close <> 44) by (destruct Hc as [-> | ->]; discriminate).
    clear Hc.
    induction Hl as [|v l Hv Hl IH]; intros l' r r' Hg' E.
    - destruct l' as [|v' l'].
      + cbn in E. injection E as ->. auto.
      + exfalso. inversion Hg'; subst. destruct (render_cons v') as (c & x & Ev & Hs); [assumption|].
        cbn [map commas app] in E. rewrite Ev in E. cbn in E. injection E as E _. exact (Nc _ _ Hs (eq_sym E)).
    - inversion Hg as [|? ? Gv Gl]; subst. destruct l' as [|v' l'].
      + exfalso. destruct (render_cons v Gv) as (c & x & Ev & Hs).
        cbn [map commas app] in E. rewrite Ev in E. cbn in E. injection E as E _. exact (Nc _ _ Hs E).
      + inversion Hg' as [|? ? Gv' Gl']; subst. cbn [map commas] in E. rewrite <- !app_assoc in E.
        assert (Em : forall m, match map render m with [] => [] | _ => lit ", " ++ commas (map render m) end
                    = match m with [] => [] | _ => lit ", " ++ commas (map render m) end) by (intros [|]; reflexivity).
        rewrite !Em in E. apply Hv in E; [|exact Gv'|apply (Am v)|apply (Am v)]. destruct E as [-> E].
        destruct l as [|w l], l' as [|w' l'].
        * injection E as ->. auto.
        * exfalso. cbn in E. injection E as E _. exact (N44 E).
        * exfalso. cbn in E. injection E as E _. exact (N44 (eq_sym E)).
        * rewrite <- !app_assoc in E. apply app_inv_head in E. destruct (IH Gl (w' :: l') r r' Gl' E) as [-> ->]. auto.
  Qed.

  Definition show_field (f : str * dval) : str := fst f ++ lit ": " ++ render (snd f).
  Definition good_field (f : str * dval) : Prop := Forall (fun c => label c = true) (fst f) /\ good (snd f).
  Lemma field_code f f' r r' : good_field f -> good_field f' -> code (snd f) -> after r -> after r' ->
    show_field f ++ r = show_field f' ++ r' -> f = f' /\ r = r'.
  Proof.
    intros [Hn Hg] [Hn' Hg'] Hc Hr Hr' E. unfold show_field in E. rewrite <- !app_assoc in E.
    apply words_split with (p := label) in E; [|assumption|assumption|reflexivity|reflexivity]. destruct E as [E1 E].
    apply app_inv_head in E. apply Hc in E; try assumption. destruct E as [E2 ->], f, f'; cbn in *; subst; auto.
  Qed.
  Lemma label_ne c : label c = true -> c <> 32.
  Proof.
    unfold label. intro H. apply orb_prop in H. destruct H as [H|H]; [apply range_ne in H; lia|]. apply N.eqb_eq in H. lia.
  Qed.
  Lemma field_start f r s : good_field f -> show_field f ++ r <> 32 :: s.
  Proof.
    intros [Hn _]. unfold show_field. destruct (fst f) as [|c n]; cbn; [discriminate|]. intro E. injection E as E _.
    inversion Hn; subst. exact (label_ne _ H1 eq_refl).
  Qed.

  Lemma fields_code l : Forall (fun f => code (snd f)) l -> Forall good_field l ->
    forall l' r r', Forall good_field l' ->
      commas (map show_field l) ++ lit " }" ++ r = commas (map show_field l') ++ lit " }" ++ r' -> l = l' /\ r = r'.
  Proof.
    intros Hl Hg. assert (Ac : forall r, after (lit " }" ++ r)).
    { intro r. cbn. split; [reflexivity|]. split; [discriminate|]. intros _. exact I. }
    assert (Am : forall (m : list (str * dval)) r, after (match m with [] => [] | _ => lit ", " ++ commas (map show_field m) end ++ lit " }" ++ r)).
    { intros [|y m] r; [apply Ac|]. split; [reflexivity|]. split; discriminate. }
    induction Hl as [|v l Hv Hl IH]; intros l' r r' Hg' E.
    - destruct l' as [|v' l'].
      + cbn [map commas app] in E. apply app_inv_head in E. auto.
      + exfalso. inversion Hg'; subst. cbn [map commas] in E. symmetry in E. rewrite <- app_assoc in E. exact (field_start _ _ _ H1 E).
    - inversion Hg as [|? ? Gv Gl]; subst. destruct l' as [|v' l'].
      + exfalso. cbn [map commas] in E. rewrite <- app_assoc in E. exact (field_start _ _ _ Gv E).
      + inversion Hg' as [|? ? Gv' Gl']; subst. cbn [map commas] in E. rewrite <- !app_assoc in E.
        assert (Em : forall m, match map show_field m with [] => [] | _ => lit ", " ++ commas (map show_field m) end
                    = match m with [] => [] | _ => lit ", " ++ commas (map show_field m) end) by (intros [|]; reflexivity).
        rewrite !Em in E. apply field_code in E; try assumption; [|apply Am|apply Am]. destruct E as [-> E].
        destruct l as [|w l], l' as [|w' l'].
        * cbn [app] in E. apply app_inv_head in E. subst. auto.
        * exfalso. cbn in E. discriminate E.
        * exfalso. cbn in E. discriminate E.
        * rewrite <- !app_assoc in E. apply app_inv_head in E. destruct (IH Gl (w' :: l') r r' Gl' E) as [-> ->]. auto.
  Qed.

  (** A named value: its name, then what follows. *)
  Definition tail (v : dval) : str :=
    match v with
    | DTuple _ l => lit "(" ++ commas (map render l) ++ lit ")"
    | DStruct _ l => lit " { " ++ commas (map show_field l) ++ lit " }"
    | _ => []
    end.
  Definition dname (v : dval) : option str :=
    match v with DUnit n | DTuple n _ | DStruct n _ => Some n | _ => None end.
  Lemma named v n : dname v = Some n -> render v = n ++ tail v.
  Proof. destruct v; try discriminate; intros [= ->]; cbn; [rewrite app_nil_r; reflexivity|reflexivity|reflexivity]. Qed.
  Lemma good_named v n : good v -> dname v = Some n -> Forall (fun c => alnum c = true) n.
  Proof. intros []; try discriminate; intros [= ->]; match goal with H : good_name _ |- _ => apply H end. Qed.
  Lemma tail_ends v r : dname v <> None -> after r -> ends_word alnum (tail v ++ r).
  Proof. intros Hn Hr. destruct v; try (destruct Hn; reflexivity); cbn; [destruct r; cbn in *; tauto|reflexivity|reflexivity]. Qed.

  Lemma unnamed_first v c : good v -> starts v c -> alpha c = true -> exists n, dname v = Some n.
  Proof.
    intros _ H Ha. destruct v; cbn in *; eauto; subst; try discriminate.
    exfalso. unfold alpha, digit in *. apply range_ne in H. apply orb_prop in Ha. destruct Ha as [Ha|Ha]; apply range_ne in Ha; lia.
  Qed.

  Theorem render_code v : good v -> code v.
  Proof.
    induction v as [n|n l IH|n l IH|s|n|l IH|l IH] using dval_ind'; intros Gv v' r r' Gv' Hr Hr' E.
    1-3: destruct (render_cons _ Gv) as (c & x & Ec & Hs), (render_cons _ Gv') as (c' & x' & Ec' & Hs');
      pose proof E as E0; rewrite Ec, Ec' in E0; cbn in E0; injection E0 as <- _; cbn in Hs;
      destruct (unnamed_first _ _ Gv' Hs' Hs) as (n' & Hn');
      rewrite (named _ _ Hn') in E;
      match type of E with render ?w ++ _ = _ => rewrite (named w n eq_refl), <- !app_assoc in E end;
      apply words_split with (p := alnum) in E;
        [destruct E as [<- E]|exact (good_named _ _ Gv eq_refl)|exact (good_named _ _ Gv' Hn')|apply tail_ends; [discriminate|exact Hr]|apply tail_ends; [congruence|exact Hr']];
      clear Ec Ec' Hs Hs' c x x'; destruct v' as [m|m l'|m l'| | | |]; try discriminate Hn'; injection Hn' as ->; cbn [tail] in E.
    - cbn in E. auto.
    - exfalso. cbn in E. subst r. cbn in Hr. tauto.
    - exfalso. cbn in E. subst r. cbn in Hr. tauto.
    - exfalso. cbn in E. subst r'. cbn in Hr'. tauto.
    - rewrite <- !app_assoc in E. apply app_inv_head in E. cbn [app lit] in E. inversion Gv as [|? ? _ Gl| | | | |]; subst.
      inversion Gv' as [|? ? _ Gl'| | | | |]; subst.
      destruct (list_code 41 l (or_introl eq_refl)) with (l' := l') (r := r) (r' := r') as [-> ->]; auto.
      clear -IH Gl. induction IH as [|a l Ha _ IH]; inversion Gl; subst; constructor; auto.
    - exfalso. cbn in E. discriminate E.
    - exfalso. cbn in E. subst r'. cbn in Hr'. tauto.
    - exfalso. cbn in E. discriminate E.
    - rewrite <- !app_assoc in E. apply app_inv_head in E. inversion Gv as [| |? ? _ Gl| | | |]; subst.
      inversion Gv' as [| |? ? _ Gl'| | | |]; subst.
      destruct (fields_code l) with (l' := l') (r := r) (r' := r') as [-> ->]; auto.
      clear -IH Gl. induction IH as [|a l Ha _ IH]; inversion Gl as [|? ? [_ G] Gl']; subst; constructor; auto.
    - destruct (quote_head s) as (x & Es), (render_cons _ Gv') as (c' & x' & Ec' & Hs'). pose proof E as E0. cbn [Derive.render] in E0.
      rewrite Es, Ec' in E0. cbn in E0. injection E0 as <- _.
      destruct v'; cbn in Hs'; try discriminate Hs'. cbn [Derive.render] in E. apply quote_code in E. destruct E as [-> ->]. auto.
    - destruct (dec_cons n) as (c & x & Es & Hd), (render_cons _ Gv') as (c' & x' & Ec' & Hs'). pose proof E as E0. cbn [Derive.render] in E0.
      rewrite Es, Ec' in E0. cbn in E0. injection E0 as <- _.
      assert (Ha : alpha c = false).
      { destruct (alpha c) eqn:Ha; [|reflexivity]. exfalso. unfold alpha, digit in *. apply range_ne in Hd.
        apply orb_prop in Ha. destruct Ha as [Ha|Ha]; apply range_ne in Ha; lia. }
      destruct v'; cbn in Hs'; try congruence; try (subst c; discriminate Hd). cbn [Derive.render] in E.
      assert (Hw : forall r, after r -> ends_word digit r).
      { clear. intros [|c r]; cbn; [auto|]. intros (H & _). unfold alnum in H. apply orb_false_iff in H. apply H. }
      apply dec_code in E; [|apply Hw, Hr|apply Hw, Hr']. destruct E as [-> ->]. auto.
    - destruct (render_cons _ Gv') as (c' & x' & Ec' & Hs'). pose proof E as E0. rewrite Ec' in E0. cbn in E0. injection E0 as <- _.
      destruct v'; cbn in Hs'; try discriminate Hs'. cbn [Derive.render] in E. rewrite <- !app_assoc in E. apply app_inv_head in E.
      inversion Gv as [| | | | |? Gl|]; subst. inversion Gv' as [| | | | |? Gl'|]; subst.
      destruct (list_code 93 l (or_intror eq_refl)) with (l' := l0) (r := r) (r' := r') as [-> ->]; auto.
      clear -IH Gl. induction IH as [|a l Ha _ IH]; inversion Gl; subst; constructor; auto.
    - destruct (render_cons _ Gv') as (c' & x' & Ec' & Hs'). pose proof E as E0. rewrite Ec' in E0. cbn in E0. injection E0 as <- _.
      destruct v'; cbn in Hs'; try discriminate Hs'. cbn [Derive.render] in E. rewrite <- !app_assoc in E. apply app_inv_head in E.
      inversion Gv as [| | | | | |? Gl]; subst. inversion Gv' as [| | | | | |? Gl']; subst.
      destruct (list_code 41 l (or_introl eq_refl)) with (l' := l0) (r := r) (r' := r') as [-> ->]; auto.
      clear -IH Gl. induction IH as [|a l Ha _ IH]; inversion Gl; subst; constructor; auto.
  Qed.

  Theorem render_inj v v' : good v -> good v' -> render v = render v' -> v = v'.
  Proof.
    intros G G' E. destruct (render_code v G v' [] [] G' I I) as [H _]; [rewrite !app_nil_r; exact E|exact H].
  Qed.
End Code.

(** ** The values of this crate *)
Section Values.
  Context (printable : char -> bool).
  Notation dstr := (debug_str printable).
  Notation render := (render dstr).

  Lemma debug_list_render {A} (f : A -> str) (see : A -> dval) l : Forall (fun a => f a = render (see a)) l ->
    debug_list f l = render (DList (map see l)).
  Proof.
    intro H. unfold debug_list. cbn [Derive.render]. rewrite commas_join. f_equal. f_equal. f_equal. rewrite map_map.
    induction H; cbn [map]; [reflexivity|congruence].
  Qed.

  Lemma ty_ind' (P : ty -> Prop) :
    P Int32 -> P Int64 -> P Int128 -> P Int256 -> P Uint32 -> P Uint64 -> P Uint128 -> P Uint256 ->
    P TyString -> P BNum -> (forall k v, P k -> P v -> P (TyMap k v)) -> P ByStr -> (forall n, P (ByStrX n)) -> P ByStr20 ->
    (forall n fs, Forall (fun f => P (field_type f)) fs -> P (ByStr20With n fs)) -> P TyBool ->
    (forall t, P t -> P (TyOption t)) -> (forall a b, P a -> P b -> P (TyPair a b)) -> (forall t, P t -> P (TyList t)) ->
    (forall s, P (Other s)) -> forall t, P t.
  Proof.
    intros H H0 H1 H2 H3 H4 H5 H6 H7 H8 H9 H10 H11 H12 H13 H14 H15 H16 H17 H18. fix IH 1. intro t.
    assert (L : forall l, Forall (fun f => P (field_type f)) l).
    { clear t. fix L 1. intros [|[n x] r]; constructor; [apply IH|apply L]. }
    destruct t; [exact H|exact H0|exact H1|exact H2|exact H3|exact H4|exact H5|exact H6|exact H7|exact H8|apply H9; apply IH
      |exact H10|apply H11|exact H12|apply H13, L|exact H14|apply H15, IH|apply H16; apply IH|apply H17, IH|apply H18].
  Qed.
  Lemma sr_ind' (P : sr_type -> Prop) : (forall m l a, Forall P l -> P (mkSr m l a)) -> forall t, P t.
  Proof.
    intro H. fix IH 1. intros [m l a]. apply H. revert l. fix L 1. intros [|x r]; constructor; [apply IH|apply L].
  Qed.

  Ltac flat := cbn -[lit dec debug_str app]; rewrite ?app_nil_r; rewrite <- ?app_assoc.
  Ltac lits := repeat match goal with |- context [lit ?s] => let v := eval cbv in (lit s) in change (lit s) with v end; cbn [app].
  Ltac same := flat; lits; repeat (rewrite <- ?app_assoc; cbn [app]); reflexivity.

  Theorem position_render p : debug_position p = render (see_position p).
  Proof. unfold debug_position, see_position. same. Qed.
  Theorem token_render t : debug_token printable t = render (see_token t).
  Proof. destruct t; unfold debug_token; cbn [token_name token_payload see_token]; same. Qed.
  Theorem item_render i : debug_item printable i = render (see_item i).
  Proof. unfold debug_item, see_item. rewrite token_render, !position_render. cbn [Derive.render map commas]. same. Qed.

  Lemma fields_render fs : Forall (fun f => debug_ty printable (field_type f) = render (see_type (field_type f))) fs ->
    debug_list (fun f => let '(mkField n ft) := f in
                         lit "Field { name: " ++ dstr n ++ lit ", type: " ++ debug_ty printable ft ++ lit " }") fs
    = render (DList (map see_field fs)).
  Proof.
    intro H. apply debug_list_render. induction H as [|[n t] l H _ IH]; constructor; [|exact IH].
    cbn [field_type] in H. rewrite H. cbn [see_field]. cbn [Derive.render map commas fst snd]. same.
  Qed.
  Theorem type_render t : debug_ty printable t = render (see_type t).
  Proof.
    induction t using ty_ind'; try reflexivity; cbn [debug_ty see_type].
    - rewrite IHt1, IHt2. cbn [Derive.render map commas]. same.
    - cbn [Derive.render map commas]. same.
    - rewrite (fields_render fs H). cbn [Derive.render map commas fst snd]. same.
    - rewrite IHt. cbn [Derive.render map commas]. same.
    - rewrite IHt1, IHt2. cbn [Derive.render map commas]. same.
    - rewrite IHt. cbn [Derive.render map commas]. same.
    - cbn [Derive.render map commas]. same.
  Qed.
  Theorem field_render f : debug_field printable f = render (see_field f).
  Proof. destruct f as [n t]. cbn [debug_field see_field]. rewrite type_render. cbn [Derive.render map commas fst snd]. same. Qed.
  Theorem field_list_render fs : debug_field_list printable fs = render (see_fields fs).
  Proof.
    unfold debug_field_list, see_fields. rewrite (debug_list_render _ see_field) by (apply Forall_forall; intros; apply field_render).
    cbn [Derive.render map commas]. same.
  Qed.
  Theorem transition_render t : debug_transition printable t = render (see_transition t).
  Proof. unfold debug_transition, see_transition. rewrite field_list_render. cbn [Derive.render map commas fst snd]. same. Qed.
  Theorem contract_render c : debug_contract printable c = render (see_contract c).
  Proof.
    unfold debug_contract, see_contract. rewrite !field_list_render.
    rewrite (debug_list_render _ see_transition) by (apply Forall_forall; intros; apply transition_render).
    cbn [Derive.render map commas fst snd]. same.
  Qed.
  Theorem identifier_render i : debug_identifier printable i = render (see_identifier i).
  Proof. unfold debug_identifier, see_identifier. destruct i as [n []]; cbn [unresolved kind see_kind debug_kind]; same. Qed.
  Theorem sr_type_render t : debug_sr_type printable t = render (see_sr_type t).
  Proof.
    induction t as [m l a H] using sr_ind'. cbn [debug_sr_type see_sr_type]. rewrite (debug_list_render _ see_sr_type l H).
    destruct a as [ad|]; [rewrite field_list_render; unfold see_address|]; cbn [Derive.render map commas fst snd]; same.
  Qed.
  Theorem object_render o : debug_object printable o = render (see_object o).
  Proof.
    destruct o; cbn [debug_object see_object]; [rewrite identifier_render|rewrite field_render|rewrite sr_type_render];
      cbn [Derive.render map commas]; same.
  Qed.

  (** They are printed unambiguously. *)
  Ltac name := split; [reflexivity|repeat constructor].
  Ltac labels := repeat constructor.
  Lemma good_type t : good (see_type t).
  Proof.
    induction t using ty_ind'; cbn [see_type]; try (constructor; name); try (constructor; [name|repeat constructor; assumption]).
    constructor; [name|]. constructor; [split; [labels|constructor]|]. constructor; [|constructor]. split; [labels|].
    cbn [snd]. constructor; [name|]. constructor; [|constructor]. constructor. apply Forall_map. eapply Forall_impl; [|exact H].
    intros [m t] G. cbn [see_field field_type] in *. constructor; [name|]. constructor; [split; [labels|constructor]|].
    constructor; [|constructor]. split; [labels|exact G].
  Qed.
  Lemma good_field_value f : good (see_field f).
  Proof.
    destruct f as [m t]. cbn [see_field]. constructor; [name|]. constructor; [split; [labels|constructor]|].
    constructor; [|constructor]. split; [labels|apply good_type].
  Qed.
  Lemma good_fields fs : good (see_fields fs).
  Proof.
    constructor; [name|]. constructor; [|constructor]. constructor. apply Forall_map, Forall_forall. intros. apply good_field_value.
  Qed.
  Lemma good_transition t : good (see_transition t).
  Proof.
    constructor; [name|]. constructor; [split; [labels|constructor]|]. constructor; [|constructor]. split; [labels|apply good_fields].
  Qed.
  Lemma good_contract c : good (see_contract c).
  Proof.
    constructor; [name|]. constructor; [split; [labels|constructor]|]. constructor; [split; [labels|apply good_fields]|].
    constructor; [split; [labels|apply good_fields]|]. constructor; [|constructor]. split; [labels|]. cbn [snd]. constructor; [name|].
    constructor; [|constructor]. constructor. apply Forall_map, Forall_forall. intros. apply good_transition.
  Qed.
  Lemma good_sr_type t : good (see_sr_type t).
  Proof.
    induction t as [m l a H] using sr_ind'. cbn [see_sr_type]. constructor; [name|].
    constructor; [split; [labels|constructor]|]. constructor; [split; [labels|constructor; apply Forall_map, H]|].
    constructor; [|constructor]. split; [labels|]. cbn [snd]. destruct a as [ad|]; [|constructor; name].
    constructor; [name|]. constructor; [|constructor]. constructor; [name|]. constructor; [split; [labels|constructor]|].
    constructor; [|constructor]. split; [labels|apply good_fields].
  Qed.
  Lemma good_object o : good (see_object o).
  Proof.
    destruct o as [[n k]|f|t]; (constructor; [name|]); (constructor; [|constructor]);
      [|apply good_field_value|apply good_sr_type].
    constructor; [name|]. repeat (constructor; [split; [labels|cbn [snd]]|]); try constructor; try name. destruct k; name.
  Qed.

  (** Nothing of a value is lost. *)
  Lemma map_see {A} (see : A -> dval) l : Forall (fun a => forall b, see a = see b -> a = b) l -> forall l', map see l = map see l' -> l = l'.
  Proof.
    induction 1 as [|a l Ha _ IH]; intros [|b l'] E; try discriminate; [reflexivity|]. cbn [map] in E. injection E as E1 E2.
    rewrite (Ha _ E1), (IH _ E2). reflexivity.
  Qed.
  Lemma see_type_inj t : forall t', see_type t = see_type t' -> t = t'.
  Proof.
    induction t using ty_ind'; intros t' E; destruct t'; try discriminate E; try reflexivity; cbn [see_type] in E.
    - injection E as E1 E2. f_equal; auto.
    - injection E as ->. reflexivity.
    - injection E as -> E. f_equal. revert E. apply map_see. eapply Forall_impl; [|exact H]. intros [m t] G [m' t'] E.
      cbn [see_field field_type] in *. injection E as -> E. f_equal. auto.
    - injection E as E. f_equal; auto.
    - injection E as E1 E2. f_equal; auto.
    - injection E as E. f_equal; auto.
    - injection E as ->. reflexivity.
  Qed.
  Lemma see_field_inj f f' : see_field f = see_field f' -> f = f'.
  Proof. destruct f, f'. cbn [see_field]. intros [= -> E]. f_equal. apply see_type_inj, E. Qed.
  Lemma see_fields_inj l l' : see_fields l = see_fields l' -> l = l'.
  Proof. unfold see_fields. intros [= E]. revert E. apply map_see, Forall_forall. intros f _ f'. apply see_field_inj. Qed.
  Lemma see_transition_inj t t' : see_transition t = see_transition t' -> t = t'.
  Proof.
    destruct t as [n l], t' as [n' l']. unfold see_transition. cbn [t_name t_params]. intro E.
    injection E as -> E. f_equal. apply see_fields_inj. unfold see_fields. rewrite E. reflexivity.
  Qed.
  Lemma see_contract_inj c c' : see_contract c = see_contract c' -> c = c'.
  Proof.
    destruct c as [n p f t], c' as [n' p' f' t']. unfold see_contract. cbn [c_name c_init_params c_fields c_transitions].
    intros [= -> E1 E2 E3]. f_equal; [| |revert E3; apply map_see, Forall_forall; intros x _ x'; apply see_transition_inj];
      apply see_fields_inj; unfold see_fields; [rewrite E1|rewrite E2]; reflexivity.
  Qed.
  Lemma see_sr_inj t : forall t', see_sr_type t = see_sr_type t' -> t = t'.
  Proof.
    induction t as [m l a H] using sr_ind'. intros [m' l' a'] E. cbn [see_sr_type] in E. injection E as -> E2 E3.
    f_equal; [revert E2; apply map_see, H|]. destruct a as [[n f]|], a' as [[n' f']|]; try discriminate; [|reflexivity].
    unfold see_address in E3. cbn [a_type_name a_fields] in E3. injection E3 as -> E3. f_equal. f_equal.
    apply see_fields_inj. unfold see_fields. rewrite E3. reflexivity.
  Qed.
  Lemma see_object_inj o o' : see_object o = see_object o' -> o = o'.
  Proof.
    destruct o as [[n k]|f|t], o' as [[n' k']|f'|t']; cbn [see_object]; try discriminate; intro E.
    - unfold see_identifier in E. cbn [unresolved kind] in E. injection E as -> E. destruct k, k'; try discriminate; reflexivity.
    - injection E as E. f_equal. apply see_field_inj, E.
    - injection E as E. f_equal. apply see_sr_inj, E.
  Qed.

  Lemma dstr_head a : exists r, dstr a = 34 :: r.
  Proof. eexists. reflexivity. Qed.
  Lemma shown_inj v v' : good v -> good v' -> render v = render v' -> v = v'.
  Proof. apply render_inj; [intros a b r s; apply str_code|apply dstr_head]. Qed.

  (** ** Quoting *)
  Lemma hex_digit_chars u : forall acc, read_hex acc (hex_chars u ++ [125])
    = Some (match acc with 0 => N.of_hex_uint u | Npos p => Npos (Pos.of_hex_uint_acc u p) end, []).
  Proof.
    induction u as [|u IH|u IH|u IH|u IH|u IH|u IH|u IH|u IH|u IH|u IH|u IH|u IH|u IH|u IH|u IH|u IH];
      intros [|p]; cbn [hex_chars app]; try reflexivity; cbn [read_hex hex_digit]; unfold hex_digit;
      match goal with |- context [in_range 48 57 ?c] => let v := eval vm_compute in (in_range 48 57 c) in change (in_range 48 57 c) with v end;
      try match goal with |- context [in_range 97 102 ?c] => let v := eval vm_compute in (in_range 97 102 c) in change (in_range 97 102 c) with v end;
      cbv iota;
      match goal with |- context [read_hex (?a * 16 + ?d) _] => let v := eval vm_compute in d in change d with v end;
      rewrite IH; cbn [Pos.of_hex_uint_acc N.of_hex_uint];
      first [reflexivity
            |match goal with |- context [Pos.of_hex_uint_acc u ?q] =>
               match goal with |- context [N.pos p * 16 + ?d] => replace (N.pos p * 16 + d) with (N.pos q) by lia end end; reflexivity].
  Qed.
  Lemma hex_read n : read_hex 0 (hex n ++ [125]) = Some (n, []).
  Proof. unfold hex. rewrite hex_digit_chars. f_equal. f_equal. apply HexadecimalN.Unsigned.of_to. Qed.

  Theorem quoted_debug s : exists body, dstr s = lit """" ++ body ++ lit """" /\ quoted body s.
  Proof.
    exists (flat_map (escape_char printable) s). split; [reflexivity|]. induction s as [|c s IH]; cbn [flat_map]; [constructor|].
    unfold escape_char.
    destruct (N.eqb_spec c 0) as [->|H1]; [apply q_escape; [cbn; tauto|exact IH]|].
    destruct (N.eqb_spec c 9) as [->|H2]; [apply q_escape; [cbn; tauto|exact IH]|].
    destruct (N.eqb_spec c 13) as [->|H3]; [apply q_escape; [cbn; tauto|exact IH]|].
    destruct (N.eqb_spec c 10) as [->|H4]; [apply q_escape; [cbn; tauto|exact IH]|].
    destruct (N.eqb_spec c 34) as [->|H5]; [apply q_escape; [cbn; tauto|exact IH]|].
    destruct (N.eqb_spec c 92) as [->|H6]; [apply q_escape; [cbn; tauto|exact IH]|].
    destruct (N.ltb_spec c 128) as [Hlt|Hge].
    - destruct (in_range 32 126 c) eqn:Hr.
      + apply range_ne in Hr. cbn [app]. apply q_char; auto; lia.
      + rewrite <- !app_assoc. apply q_unicode; [apply hex_read|exact IH].
    - destruct (printable c).
      + cbn [app]. apply q_char; auto; lia.
      + rewrite <- !app_assoc. apply q_unicode; [apply hex_read|exact IH].
  Qed.
End Values.
