(** [Type::from(SrType)] (Types.v) computes exactly the denotation of type
    expressions (EmitSpec.v). *)
From Verif Require Import Chars Lexer LexerProofs Ast Types EmitSpec.

Scheme denotes_mind := Induction for denotes Sort Prop
  with denote_fields_mind := Induction for denote_fields Sort Prop
  with sound_mind := Induction for sound Sort Prop
  with sounds_mind := Induction for sounds Sort Prop.
Combined Scheme denotes_mutind from denotes_mind, denote_fields_mind, sound_mind, sounds_mind.

Section TexpInd.
  Context (P : texp -> Prop)
    (Hname : forall n args, Forall P args -> P (TName n args))
    (Haddr : forall n k fs, Forall (fun nx => P (snd nx)) fs -> P (TAddr n k fs))
    (Huns : P TUnsupported).
  Fixpoint texp_ind' (x : texp) : P x :=
    match x with
    | TName n args =>
        Hname n args ((fix go l : Forall P l :=
          match l with [] => Forall_nil _ | a :: r => Forall_cons a (texp_ind' a) (go r) end) args)
    | TAddr n k fs =>
        Haddr n k fs ((fix go l : Forall (fun nx => P (snd nx)) l :=
          match l with
          | [] => Forall_nil _
          | a :: r => Forall_cons a (texp_ind' (snd a)) (go r)
          end) fs)
    | TUnsupported => Huns
    end.
End TexpInd.

(** The [SrType] a type expression is turned into. *)
Fixpoint sr (x : texp) : sr_type :=
  match x with
  | TName n args => mkSr n (map sr args) None
  | TAddr n k fs =>
      mkSr n [] (Some (mkAddr k
        (map (fun nx => mkField (fst nx)
                match type_from (sr (snd nx)) with Some t => t | None => ByStr end) fs)))
  | TUnsupported => mkSr [] [] None
  end.

Definition is_some {A} (o : option A) : bool := match o with Some _ => true | None => false end.
Fixpoint soundb (x : texp) : bool :=
  match x with
  | TName _ args => forallb soundb args
  | TAddr _ _ fs => forallb (fun nx => soundb (snd nx) && is_some (type_from (sr (snd nx)))) fs
  | TUnsupported => false
  end.

(** [Some t] when the expression denotes [t]. *)
Definition denote (x : texp) : option ty := if soundb x then type_from (sr x) else None.

(** ** Decimal sizes *)
Lemma digits_value_spec ds : forall acc, acc < 2 ^ 64 ->
  digits_value acc ds =
  if forallb is_digit ds && (fold_left (fun a c => a * 10 + (c - 48)) ds acc <? 2 ^ 64)
  then Some (fold_left (fun a c => a * 10 + (c - 48)) ds acc) else None.
Proof.
  assert (Hmono : forall l a, a <= fold_left (fun a c => a * 10 + (c - 48)) l a).
  { induction l as [|c l IH]; intro a; cbn [fold_left]; [lia|].
    specialize (IH (a * 10 + (c - 48))). lia. }
  induction ds as [|c ds IH]; intros acc Hacc; cbn [digits_value forallb fold_left].
  - cbn [andb]. destruct (N.ltb_spec acc (2 ^ 64)); [reflexivity|lia].
  - destruct (is_digit c); cbn [andb]; [|reflexivity].
    destruct (N.ltb_spec (acc * 10 + (c - 48)) (2 ^ 64)) as [Hlt|Hge].
    + apply IH, Hlt.
    + specialize (Hmono ds (acc * 10 + (c - 48))).
      destruct (forallb is_digit ds); cbn [andb]; [|reflexivity].
      destruct (N.ltb_spec (fold_left (fun a c => a * 10 + (c - 48)) ds (acc * 10 + (c - 48))) (2 ^ 64)); [lia|reflexivity].
Qed.

Lemma parse_usize_spec s n : parse_usize s = Some n <->
  exists plus ds, s = plus ++ ds /\ (plus = [] \/ plus = lit "+") /\ ds <> []
    /\ Forall (fun c => is_digit c = true) ds /\ decimal ds = n /\ n < 2 ^ 64.
Proof.
  unfold parse_usize, decimal. split.
  - intro H.
    assert (Hb : exists plus, s = plus ++ match s with 43 :: r => r | _ => s end /\ (plus = [] \/ plus = lit "+")).
    { destruct s as [|c r]; [exists []; auto|].
      destruct (N.eq_dec c 43) as [->|Hc]; [exists (lit "+"); cbn; auto|].
      exists []. split; [|auto]. destruct c; [reflexivity|].
      do 6 (try destruct p; try reflexivity). exfalso; apply Hc; reflexivity. }
    destruct Hb as (plus & Hs & Hp). set (body := match s with 43 :: r => r | _ => s end) in *.
    clearbody body. exists plus, body. split; [exact Hs|]. split; [exact Hp|].
    destruct body as [|c r]; [discriminate|]. split; [discriminate|].
    rewrite digits_value_spec in H by reflexivity.
    destruct (forallb is_digit (c :: r)) eqn:Ed; cbn [andb] in H; [|discriminate].
    destruct (N.ltb_spec (fold_left (fun a c => a * 10 + (c - 48)) (c :: r) 0) (2 ^ 64)) as [Hlt|_]; [|discriminate].
    injection H as <-. split; [apply Forall_forall; rewrite forallb_forall in Ed; exact Ed|]. auto.
  - intros (plus & ds & -> & Hp & Hne & Hd & <- & Hlt).
    assert (E : match plus ++ ds with 43 :: r => r | _ => plus ++ ds end = ds).
    { destruct Hp as [-> | ->]; [|reflexivity]. cbn [app].
      destruct ds as [|c r]; [reflexivity|]. inversion Hd as [|? ? Hc _]; subst.
      destruct c as [|p]; [reflexivity|]. do 6 (try destruct p; try reflexivity).
      vm_compute in Hc. discriminate. }
    rewrite E. destruct ds as [|c r]; [congruence|].
    rewrite digits_value_spec by reflexivity.
    assert (Ed : forallb is_digit (c :: r) = true) by (rewrite forallb_forall; rewrite Forall_forall in Hd; exact Hd).
    rewrite Ed. cbn [andb].
    destruct (N.ltb_spec (fold_left (fun a c => a * 10 + (c - 48)) (c :: r) 0) (2 ^ 64)); [reflexivity|lia].
Qed.

Lemma strip_prefix_app p r : strip_prefix p (p ++ r) = Some r.
Proof. induction p as [|c p IH]; [reflexivity|]. cbn. rewrite N.eqb_refl. exact IH. Qed.

Lemma strip_prefix_some p s r : strip_prefix p s = Some r -> s = p ++ r.
Proof.
  revert s. induction p as [|c p IH]; intros s; cbn.
  - intro H. injection H as ->. reflexivity.
  - destruct s as [|d s]; [discriminate|]. destruct (N.eqb_spec c d) as [->|]; [|discriminate].
    intro H. f_equal. apply IH, H.
Qed.

(** ** Names *)
Lemma str_dec (a b : str) : {a = b} + {a <> b}.
Proof. destruct (str_eqb a b) eqn:E; [left; apply str_eqb_eq, E|right; intros H; apply str_eqb_eq in H; congruence]. Qed.

Lemma str_eqb_neq a b : a <> b -> str_eqb a b = false.
Proof. intro H. destruct (str_eqb a b) eqn:E; [apply str_eqb_eq in E; contradiction|reflexivity]. Qed.

Lemma str_eqb_refl a : str_eqb a a = true.
Proof. apply str_eqb_eq. reflexivity. Qed.

Lemma base_assoc n t : str_assoc n base_types = Some t <-> base_name n t.
Proof.
  split.
  - unfold base_types. cbn [str_assoc]. intro H.
    repeat match type of H with
    | (if str_eqb n ?k then _ else _) = _ =>
        let E := fresh "E" in
        destruct (str_eqb n k) eqn:E;
        [apply str_eqb_eq in E; rewrite E; injection H as <-; constructor|clear E]
    end. discriminate.
  - destruct 1; reflexivity.
Qed.

Lemma base_assoc_none n : str_assoc n base_types = None <-> forall t, ~ base_name n t.
Proof.
  split.
  - intros H t Hb. apply base_assoc in Hb. congruence.
  - intro H. destruct (str_assoc n base_types) eqn:E; [|reflexivity].
    apply base_assoc in E. exfalso. eapply H, E.
Qed.

Definition size_of (n : str) : option N :=
  match strip_prefix (lit "ByStr") n with Some r => parse_usize r | None => None end.

Lemma size_of_spec n size : n <> lit "ByStr20" -> size_of n = Some size <-> sized_bystr n size.
Proof.
  intro Hn. unfold size_of, sized_bystr. split.
  - destruct (strip_prefix (lit "ByStr") n) as [r|] eqn:E; [|discriminate]. intro H.
    apply strip_prefix_some in E. subst n. apply parse_usize_spec in H.
    destruct H as (plus & ds & -> & H1 & H2 & H3 & H4 & H5). exists plus, ds. auto 10.
  - intros (plus & ds & -> & H1 & H2 & H3 & H4 & H5 & _).
    rewrite strip_prefix_app. apply parse_usize_spec. exists plus, ds. auto 10.
Qed.

(** ** [type_from] by cases on the name *)
Lemma type_from_base n subs addr t : base_name n t -> type_from (mkSr n subs addr) = Some t.
Proof. intro H. apply base_assoc in H. cbn [type_from]. rewrite H. reflexivity. Qed.

Lemma type_from_option subs addr : type_from (mkSr (lit "Option") subs addr) =
  match rev (map type_from subs) with Some a :: _ => Some (TyOption a) | _ => None end.
Proof. reflexivity. Qed.
Lemma type_from_list subs addr : type_from (mkSr (lit "List") subs addr) =
  match rev (map type_from subs) with Some a :: _ => Some (TyList a) | _ => None end.
Proof. reflexivity. Qed.
Lemma type_from_pair subs addr : type_from (mkSr (lit "Pair") subs addr) =
  match rev (map type_from subs) with Some b :: Some a :: _ => Some (TyPair a b) | _ => None end.
Proof. reflexivity. Qed.
Lemma type_from_map subs addr : type_from (mkSr (lit "Map") subs addr) =
  match rev (map type_from subs) with Some b :: Some a :: _ => Some (TyMap a b) | _ => None end.
Proof. reflexivity. Qed.
Lemma type_from_bystr20 subs addr : type_from (mkSr (lit "ByStr20") subs addr) =
  Some match addr with None => ByStr20 | Some a => ByStr20With (a_type_name a) (a_fields a) end.
Proof. reflexivity. Qed.

Lemma type_from_other n subs addr :
  (forall t, ~ base_name n t) -> ~ constructor_name n ->
  type_from (mkSr n subs addr) = Some match size_of n with Some k => ByStrX k | None => Other n end.
Proof.
  intros Hb Hc. unfold constructor_name in Hc. cbn [type_from]. rewrite (proj2 (base_assoc_none n) Hb).
  rewrite (str_eqb_neq n (lit "Option")) by tauto. rewrite (str_eqb_neq n (lit "List")) by tauto.
  rewrite (str_eqb_neq n (lit "Pair")) by tauto. rewrite (str_eqb_neq n (lit "Map")) by tauto.
  rewrite (str_eqb_neq n (lit "ByStr20")) by tauto.
  destruct (starts_with (lit "ByStr") n) eqn:E.
  - fold (size_of n). destruct (size_of n); reflexivity.
  - unfold size_of. destruct (strip_prefix (lit "ByStr") n) as [r|] eqn:Es; [|reflexivity].
    apply strip_prefix_some in Es. assert (starts_with (lit "ByStr") n = true) by (apply starts_with_spec; eauto).
    congruence.
Qed.

Lemma base_not_constructor n t : base_name n t -> ~ constructor_name n.
Proof. intros H. unfold constructor_name. destruct H; intros [|[|[|[|]]]]; discriminate. Qed.

Lemma sized_not_base n k t : sized_bystr n k -> ~ base_name n t.
Proof.
  intros (plus & ds & -> & Hp & Hne & Hd & _) H.
  assert (Hex : exists c r, plus ++ ds = c :: r).
  { destruct Hp as [-> | ->]; [destruct ds as [|c r]; [congruence|exists c, r; reflexivity]|exists 43, ds; reflexivity]. }
  destruct Hex as (c & r & E). rewrite E in H. remember (lit "ByStr" ++ c :: r) as n eqn:En.
  destruct H; cbn in En; discriminate En.
Qed.

Lemma sized_not_constructor n k : sized_bystr n k -> ~ constructor_name n.
Proof.
  intros (plus & ds & -> & Hp & Hne & Hd & _ & _ & H20) [H|[H|[H|[H|H]]]]; try discriminate. exact (H20 H).
Qed.

Lemma constructor_dec n : {constructor_name n} + {~ constructor_name n}.
Proof.
  unfold constructor_name.
  destruct (str_dec n (lit "Option")); [left; auto|]. destruct (str_dec n (lit "List")); [left; auto|].
  destruct (str_dec n (lit "Pair")); [left; auto|]. destruct (str_dec n (lit "Map")); [left; auto|].
  destruct (str_dec n (lit "ByStr20")); [left; auto 6|]. right. tauto.
Qed.

(** ** Denotation and [type_from] *)
Definition fields_done (fs : list (str * texp)) : list field :=
  map (fun nx => mkField (fst nx) match type_from (sr (snd nx)) with Some t => t | None => ByStr end) fs.

Lemma rev_map_snoc {A B} (f : A -> B) l a : rev (map f (l ++ [a])) = f a :: rev (map f l).
Proof. rewrite map_app, rev_app_distr. reflexivity. Qed.

Lemma rev_map_snoc2 {A B} (f : A -> B) l a b : rev (map f (l ++ [a; b])) = f b :: f a :: rev (map f l).
Proof. rewrite map_app, rev_app_distr. reflexivity. Qed.

Lemma denotes_computes :
  (forall x t, denotes x t -> soundb x = true /\ type_from (sr x) = Some t) /\
  (forall fs l, denote_fields fs l ->
     forallb (fun nx => soundb (snd nx) && is_some (type_from (sr (snd nx)))) fs = true /\ fields_done fs = l) /\
  (forall x, sound x -> soundb x = true) /\
  (forall l, sounds l -> forallb soundb l = true).
Proof.
  apply denotes_mutind.
  - intros n args t Hb _ Hs. cbn [soundb sr]. split; [exact Hs|apply type_from_base, Hb].
  - intros args a t _ Hs _ [Ha Ea]. cbn [soundb sr]. rewrite forallb_app, Hs. cbn [forallb]. rewrite Ha.
    split; [reflexivity|]. rewrite type_from_option, map_map, rev_map_snoc, Ea. reflexivity.
  - intros args a t _ Hs _ [Ha Ea]. cbn [soundb sr]. rewrite forallb_app, Hs. cbn [forallb]. rewrite Ha.
    split; [reflexivity|]. rewrite type_from_list, map_map, rev_map_snoc, Ea. reflexivity.
  - intros args a b ta tb _ Hs _ [Ha Ea] _ [Hb Eb]. cbn [soundb sr]. rewrite forallb_app, Hs. cbn [forallb]. rewrite Ha, Hb.
    split; [reflexivity|]. rewrite type_from_pair, map_map, rev_map_snoc2, Ea, Eb. reflexivity.
  - intros args a b ta tb _ Hs _ [Ha Ea] _ [Hb Eb]. cbn [soundb sr]. rewrite forallb_app, Hs. cbn [forallb]. rewrite Ha, Hb.
    split; [reflexivity|]. rewrite type_from_map, map_map, rev_map_snoc2, Ea, Eb. reflexivity.
  - intros args _ Hs. cbn [soundb sr]. split; [exact Hs|]. rewrite type_from_bystr20. reflexivity.
  - intros n size args Hz _ Hs. cbn [soundb sr]. split; [exact Hs|].
    rewrite type_from_other; [|intros t; eapply sized_not_base, Hz|eapply sized_not_constructor, Hz].
    rewrite (proj2 (size_of_spec n size ltac:(destruct Hz as (? & ? & ? & ? & ? & ? & ? & ? & ?); assumption)) Hz). reflexivity.
  - intros n args Hb Hc Hz _ Hs. cbn [soundb sr]. split; [exact Hs|].
    rewrite type_from_other by assumption. destruct (size_of n) as [k|] eqn:E; [|reflexivity].
    exfalso. apply (Hz k). apply size_of_spec; [|exact E]. intros ->. apply Hc. unfold constructor_name. auto 6.
  - intros kind fs fs' _ [Hs Ef]. subst fs'. cbn [soundb sr]. split; [exact Hs|]. rewrite type_from_bystr20. reflexivity.
  - intros n kind fs fs' t Hn _ [Hs _] _ [_ Et]. cbn [soundb sr] in *. split; [exact Hs|].
    cbn [map] in Et. destruct (constructor_dec n) as [Hc|Hc].
    + destruct Hc as [->|[->|[->|[->| ->]]]]; try discriminate Et. congruence.
    + destruct (str_assoc n base_types) as [t'|] eqn:Eb.
      * apply base_assoc in Eb. rewrite (type_from_base _ _ _ _ Eb) in Et. rewrite (type_from_base _ _ _ _ Eb). exact Et.
      * pose proof (proj1 (base_assoc_none n) Eb) as Hb. rewrite type_from_other in Et by assumption. rewrite type_from_other by assumption. exact Et.
  - split; reflexivity.
  - intros n x t l l' _ [Hx Ex] _ [Hl El]. cbn [forallb fields_done map fst snd]. rewrite Hx, Ex, Hl. cbn [is_some andb].
    split; [reflexivity|]. f_equal. exact El.
  - intros n args _ Hs. exact Hs.
  - intros n kind fs fs' _ [Hs _]. exact Hs.
  - reflexivity.
  - intros x l _ Hx _ Hl. cbn [forallb]. rewrite Hx, Hl. reflexivity.
Qed.

Lemma some_rev {A} (l : list A) a r : rev l = a :: r -> exists r', l = r' ++ [a].
Proof. intro H. exists (rev r). rewrite <- (rev_involutive l), H. reflexivity. Qed.

Lemma snoc_inv {A} (l : list A) : l = [] \/ exists r a, l = r ++ [a].
Proof. induction l as [|a l IH] using rev_ind; [auto|right; eauto]. Qed.

Lemma computes_denotes x :
  (soundb x = true -> sound x) /\ (soundb x = true -> forall t, type_from (sr x) = Some t -> denotes x t).
Proof.
  induction x as [n args IH|n k fs IH|] using texp_ind'.
  - assert (Hsounds : forall l, Forall (fun x => (soundb x = true -> sound x) /\
        (soundb x = true -> forall t, type_from (sr x) = Some t -> denotes x t)) l ->
        forallb soundb l = true -> sounds l).
    { clear. induction l as [|x l IHl]; intros HF H; [constructor|]. cbn [forallb] in H.
      apply andb_prop in H. destruct H as [Hx Hl]. inversion HF as [|? ? [H1 _] H2]; subst.
      constructor; auto. }
    split; [intro H; constructor; apply Hsounds; assumption|].
    intros Hs t Ht. cbn [soundb] in Hs. cbn [sr] in Ht.
    destruct (str_assoc n base_types) as [t'|] eqn:Eb.
    { apply base_assoc in Eb. rewrite (type_from_base _ _ _ _ Eb) in Ht. injection Ht as <-.
      constructor; auto. }
    pose proof (proj1 (base_assoc_none n) Eb) as Hb.
    assert (Hone : forall f, match rev (map type_from (map sr args)) with Some a :: _ => Some (f a) | _ => None end = Some t ->
      exists r a ta, args = r ++ [a] /\ sounds r /\ denotes a ta /\ t = f ta).
    { intros f H. rewrite map_map in H. destruct (snoc_inv args) as [->|(r & a & ->)]; [discriminate|].
      rewrite rev_map_snoc in H. apply Forall_app in IH. destruct IH as [IHr IHa].
      inversion IHa as [|? ? [_ Hd] _]; subst. rewrite forallb_app in Hs. apply andb_prop in Hs. destruct Hs as [Hr Ha].
      cbn [forallb] in Ha. rewrite andb_true_r in Ha.
      destruct (type_from (sr a)) as [ta|] eqn:Ea; [|discriminate]. injection H as <-. exists r, a, ta. auto. }
    assert (Htwo : forall f, match rev (map type_from (map sr args)) with Some b :: Some a :: _ => Some (f a b) | _ => None end = Some t ->
      exists r a b ta tb, args = r ++ [a; b] /\ sounds r /\ denotes a ta /\ denotes b tb /\ t = f ta tb).
    { intros f H. rewrite map_map in H. destruct (snoc_inv args) as [->|(r & b & ->)]; [discriminate|].
      destruct (snoc_inv r) as [->|(r' & a & ->)]; [cbn in H; destruct (type_from (sr b)); discriminate|].
      rewrite <- app_assoc in *. cbn [app] in *. rewrite rev_map_snoc2 in H.
      apply Forall_app in IH. destruct IH as [IHr IHa].
      inversion IHa as [|? ? [_ Hda] IHb]; subst. inversion IHb as [|? ? [_ Hdb] _]; subst.
      rewrite forallb_app in Hs. apply andb_prop in Hs. destruct Hs as [Hr Hab].
      cbn [forallb] in Hab. rewrite andb_true_r in Hab. apply andb_prop in Hab. destruct Hab as [Ha Hbb].
      destruct (type_from (sr b)) as [tb|] eqn:Ebb; [|discriminate].
      destruct (type_from (sr a)) as [ta|] eqn:Ea; [|discriminate]. injection H as <-.
      exists r', a, b, ta, tb. auto 10. }
    destruct (constructor_dec n) as [Hc|Hc].
    + destruct Hc as [->|[->|[->|[->| ->]]]].
      * rewrite type_from_option in Ht. destruct (Hone _ Ht) as (r & a & ta & -> & Hr & Ha & ->). apply d_option; auto.
      * rewrite type_from_list in Ht. destruct (Hone _ Ht) as (r & a & ta & -> & Hr & Ha & ->). apply d_list; auto.
      * rewrite type_from_pair in Ht. destruct (Htwo _ Ht) as (r & a & b & ta & tb & -> & Hr & Ha & Hbb & ->). apply d_pair; auto.
      * rewrite type_from_map in Ht. destruct (Htwo _ Ht) as (r & a & b & ta & tb & -> & Hr & Ha & Hbb & ->). apply d_map; auto.
      * rewrite type_from_bystr20 in Ht. injection Ht as <-. apply d_bystr20; auto.
    + rewrite type_from_other in Ht by assumption. destruct (size_of n) as [k|] eqn:Ek; injection Ht as <-.
      * apply d_bystrx; [|auto]. apply size_of_spec; [|exact Ek]. intros ->. apply Hc. unfold constructor_name. auto 6.
      * apply d_other; auto. intros k Hz. apply size_of_spec in Hz; [congruence|].
        destruct Hz as (? & ? & ? & ? & ? & ? & ? & ? & ?); assumption.
  - assert (Hf : soundb (TAddr n k fs) = true -> denote_fields fs (fields_done fs)).
    { cbn [soundb]. clear n k. induction fs as [|[m x] fs IHf]; intro H; [constructor|].
      cbn [forallb snd] in H. apply andb_prop in H. destruct H as [H1 H2]. apply andb_prop in H1. destruct H1 as [Hs Ht].
      inversion IH as [|? ? [_ Hd] IHr]; subst. cbn [snd] in Hd. cbn [fields_done map fst snd].
      destruct (type_from (sr x)) as [t|] eqn:E; [|discriminate]. constructor; auto. }
    split; [intro H; econstructor; apply Hf, H|].
    intros Hs t Ht. specialize (Hf Hs). cbn [sr] in Ht.
    destruct (str_dec n (lit "ByStr20")) as [->|Hn].
    + rewrite type_from_bystr20 in Ht. injection Ht as <-. apply d_address. exact Hf.
    + eapply d_address_other; [exact Hn|exact Hf|].
      destruct (str_assoc n base_types) as [t'|] eqn:Eb.
      { apply base_assoc in Eb. rewrite (type_from_base _ _ _ _ Eb) in Ht. injection Ht as <-.
        constructor; [exact Eb|constructor]. }
      pose proof (proj1 (base_assoc_none n) Eb) as Hb.
      destruct (constructor_dec n) as [Hc|Hc].
      * destruct Hc as [->|[->|[->|[->| ->]]]]; try discriminate Ht. congruence.
      * rewrite type_from_other in Ht by assumption. destruct (size_of n) as [z|] eqn:Ek; injection Ht as <-.
        -- apply d_bystrx; [|constructor]. apply size_of_spec; assumption.
        -- apply d_other; auto; [|constructor]. intros z Hz. apply size_of_spec in Hz; congruence.
  - split; discriminate.
Qed.

Lemma denotes_iff x t : denotes x t <-> soundb x = true /\ type_from (sr x) = Some t.
Proof. split; [apply (proj1 denotes_computes)|]. intros [H1 H2]. apply computes_denotes; assumption. Qed.

Lemma sound_iff x : sound x <-> soundb x = true.
Proof. split; [apply (proj1 (proj2 (proj2 denotes_computes)))|apply computes_denotes]. Qed.

Lemma denote_iff x t : denotes x t <-> denote x = Some t.
Proof. rewrite denotes_iff. unfold denote. destruct (soundb x); intuition congruence. Qed.

Lemma denotes_unique x t t' : denotes x t -> denotes x t' -> t = t'.
Proof. rewrite !denote_iff. congruence. Qed.

Lemma denotes_dec x : (exists t, denotes x t) \/ (forall t, ~ denotes x t).
Proof.
  destruct (denote x) as [t|] eqn:E.
  - left. exists t. apply denote_iff, E.
  - right. intros t H. apply denote_iff in H. congruence.
Qed.

(** [denote_fields] as a function *)
Fixpoint denote_list (l : list (str * texp)) : option (list field) :=
  match l with
  | [] => Some []
  | (n, x) :: r =>
      match denote x, denote_list r with
      | Some t, Some r' => Some (mkField n t :: r')
      | _, _ => None
      end
  end.

Lemma denote_list_iff l fs : denote_fields l fs <-> denote_list l = Some fs.
Proof.
  split.
  - induction 1 as [|n x t l l' Hx Hl IH]; [reflexivity|]. cbn [denote_list].
    apply denote_iff in Hx. rewrite Hx, IH. reflexivity.
  - revert fs. induction l as [|[n x] l IH]; intros fs H; cbn [denote_list] in H.
    + injection H as <-. constructor.
    + destruct (denote x) as [t|] eqn:E; [|discriminate]. destruct (denote_list l) as [r|]; [|discriminate].
      injection H as <-. constructor; [apply denote_iff, E|auto].
Qed.
