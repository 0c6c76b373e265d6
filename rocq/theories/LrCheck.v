(** Checks on the generated automaton (Tables.v).  [vm_compute] runs the checker;
    LrProofs.v proves that an automaton passing it is a correct parser.
    None of this models code of /repo. *)
From Verif Require Import Chars Lexer Ast Grammar Cfg Tables Parser.

Definition nstates : nat := List.length states.
Definition items_at (s : N) : list (bsym * nat * nat * N) :=
  match nth_error state_items (N.to_nat s) with Some l => l | None => [] end.
Definition la_codes : list N := map N.of_nat (seq 0 64).
Definition state_ids : list N := map N.of_nat (seq 0 nstates).

(** (the tables only list the [x+] that occur in the grammar) *)
Definition first_of (b : bsym) : N :=
  let look b := match assocN (bsym_code b) first_table with Some m => m | None => 0 end in
  match b with BP a => look (bsym_of a) | _ => look b end.
Definition rank_of (b : bsym) : N :=
  let look b := match assocN (bsym_code b) rank_table with Some m => m | None => 0 end in
  match b with BP a => 1 + look (bsym_of a) | _ => look b end.

Definition is_terminal (b : bsym) : bool := match b with BT _ => true | _ => false end.
Definition is_start (b : bsym) : bool := match b with BS _ => true | _ => false end.

Definition core_in (b : bsym) (j d : nat) (l : list (bsym * nat * nat * N)) : bool :=
  existsb (fun '(b', j', d', _) => bsym_eqb b' b && Nat.eqb j' j && Nat.eqb d' d) l.
(** an item (b, j, d) whose look-ahead set includes the mask [m] *)
Definition item_in (b : bsym) (j d : nat) (m : N) (l : list (bsym * nat * nat * N)) : bool :=
  existsb (fun '(b', j', d', m') =>
             bsym_eqb b' b && Nat.eqb j' j && Nat.eqb d' d && (N.ldiff m m' =? 0)) l.

Definition follow (rhs : list bsym) (d : nat) (m : N) : N :=
  match nth_error rhs (S d) with Some y => first_of y | None => m end.

(** completeness conditions for one item of state [st] *)
Definition check_item (st : state) (l : list (bsym * nat * nat * N))
    (it : bsym * nat * nat * N) : bool :=
  let '(b, j, d, m) := it in
  match rhs_of b j with
  | None => false
  | Some rhs =>
      match nth_error rhs d with
      | None =>
          Nat.eqb d (List.length rhs) &&
          forallb (fun a => negb (N.testbit m a) ||
                            match assocN a (st_actions st) with
                            | Some (Reduce b' j') => bsym_eqb b' b && Nat.eqb j' j
                            | _ => false
                            end) la_codes
      | Some (BT k) =>
          match assocN (tk_code k) (st_actions st) with
          | Some (Shift s') => item_in b j (S d) m (items_at s')
          | _ => false
          end
      | Some x =>
          negb (is_start x) &&
          match assocN (bsym_code x) (st_gotos st) with
          | Some s' => item_in b j (S d) m (items_at s')
          | None => false
          end
          && forallb (fun j' => item_in x j' 0 (follow rhs d m) l) (seq 0 (List.length (fprods x)))
      end
  end.

(** safety conditions *)
Definition check_back (x : bsym) (l l' : list (bsym * nat * nat * N)) : bool :=
  forallb (fun '(b, j, d, _) =>
             match d with
             | O => true
             | S d' => match rhs_of b j with
                       | Some rhs => match nth_error rhs d' with
                                     | Some y => bsym_eqb y x
                                     | None => false
                                     end
                       | None => false
                       end && core_in b j d' l
             end) l'.
Definition is_start_id (s : N) : bool := existsb (fun A => start_state A =? s) all_nts.
Definition check_action (l : list (bsym * nat * nat * N)) (x : N * action) : bool :=
  match x with
  | (a, Reduce b j) =>
      match rhs_of b j with
      | Some rhs => core_in b j (List.length rhs) l
      | None => false
      end && (negb (is_start b) || (a =? eof_code))
  | (a, Shift s') =>
      match tk_decode a with
      | Some k => check_back (BT k) l (items_at s')
      | None => false
      end && Nat.ltb (N.to_nat s') nstates && negb (is_start_id s')
  end.
Definition all_bsyms : list bsym :=
  map BT all_tks ++ map BN all_nts ++ map (fun k => BP (Tm k)) all_tks
  ++ map (fun A => BP (Nt A)) all_nts ++ map BS all_nts.
Definition bsym_decode (c : N) : option bsym :=
  find (fun b => bsym_code b =? c) all_bsyms.
Definition check_goto (l : list (bsym * nat * nat * N)) (x : N * N) : bool :=
  let '(c, s') := x in
  match bsym_decode c with
  | Some b => negb (is_terminal b) && check_back b l (items_at s')
  | None => false
  end && Nat.ltb (N.to_nat s') nstates && negb (is_start_id s').

(** every closure item is introduced by an earlier item of the list *)
Fixpoint check_just (s : N) (st : state) (seen todo : list (bsym * nat * nat * N)) : bool :=
  match todo with
  | [] => true
  | (b, j, d, m) :: r =>
      match d with
      | O =>
          if is_start b then
            match b with BS A => start_state A =? s | _ => false end
          else
            match assocN (bsym_code b) (st_gotos st) with Some _ => true | None => false end
            && existsb (fun '(b', j', d', _) =>
                          match rhs_of b' j' with
                          | Some rhs => match nth_error rhs d' with
                                        | Some y => bsym_eqb y b
                                        | None => false
                                        end
                          | None => false
                          end) seen
      | S _ => true
      end && check_just s st ((b, j, d, m) :: seen) r
  end.

Definition check_state (s : N) : bool :=
  match state_at s with
  | None => false
  | Some st =>
      let l := items_at s in
      negb (match l with [] => true | _ => false end)
      && forallb (check_item st l) l
      && forallb (check_action l) (st_actions st)
      && forallb (check_goto l) (st_gotos st)
      && check_just s st [] l
  end.

Definition check_start (A : nt) : bool :=
  Nat.ltb (N.to_nat (start_state A)) nstates &&
  item_in (BS A) 0 0 (2 ^ 63) (items_at (start_state A)) &&
  forallb (fun '(_, _, d, _) => Nat.eqb d 0) (items_at (start_state A)).

(** per symbol: FIRST sets, no empty right hand side, ranks, no start symbol
    on a right hand side *)
Definition check_sym (b : bsym) : bool :=
  match b with
  | BT k => N.testbit (first_of b) (tk_code k)
  | _ => true
  end
  && (rank_of b <=? N.of_nat max_rank)
  && forallb (fun f =>
       match f_rhs f with
       | [] => false
       | y :: r =>
           (N.ldiff (first_of y) (first_of b) =? 0)
           && match r with [] => is_start b || (rank_of y <? rank_of b) | _ => true end
           && forallb (fun y => negb (is_start y)) (y :: r)
       end) (fprods b).

(** productivity: a production whose symbols all have smaller depth *)
Definition depth_of (b : bsym) : N :=
  let look b := match b with
                | BT _ => 0
                | _ => match assocN (bsym_code b) depth_table with Some (_, d) => d | None => 1000 end
                end in
  match b with BP a => 1 + look (bsym_of a) | _ => look b end.
Definition check_depth (b : bsym) : bool :=
  is_terminal b || is_start b ||
  existsb (fun f => forallb (fun y => depth_of y <? depth_of b) (f_rhs f)) (fprods b).

Lemma check_states_ok : forallb check_state state_ids = true.
Proof. vm_compute. reflexivity. Qed.
Lemma check_starts_ok : forallb check_start all_nts = true.
Proof. vm_compute. reflexivity. Qed.
Lemma check_syms_ok : forallb check_sym all_bsyms = true.
Proof. vm_compute. reflexivity. Qed.
Lemma check_depths_ok : forallb check_depth all_bsyms = true.
Proof. vm_compute. reflexivity. Qed.
