(** The grammar of Grammar.v as a plain context free grammar, the way lalrpop
    normalises it before building its automaton: [x?] and [x*] are inlined (one
    production per choice) and [x+] becomes a left recursive non terminal.
    There are no empty productions left. *)
From Verif Require Import Chars Lexer Ast Grammar.

(** Numeric codes (for table look-up and decidable equality). *)
Definition tk_code (k : tk) : N :=
  match k with
  | KPlus => 0
  | KAsterisk => 1
  | KSemicolon => 2
  | KColon => 3
  | KDot => 4
  | KPipe => 5
  | KOpenBracket => 6
  | KCloseBracket => 7
  | KOpenParen => 8
  | KCloseParen => 9
  | KOpenBrace => 10
  | KCloseBrace => 11
  | KComma => 12
  | KDoubleArrow => 13
  | KArrow => 14
  | KEquals => 15
  | KAmpersand => 16
  | KLeftArrow => 17
  | KColonEquals => 18
  | KAt => 19
  | KMinus => 20
  | KUnderscore => 21
  | KForall => 22
  | KBuiltin => 23
  | KLibrary => 24
  | KImport => 25
  | KLet => 26
  | KIn => 27
  | KMatch => 28
  | KWith => 29
  | KEnd => 30
  | KFun => 31
  | KTfun => 32
  | KContract => 33
  | KTransition => 34
  | KSend => 35
  | KEvent => 36
  | KEventType => 37
  | KField => 38
  | KAccept => 39
  | KExists => 40
  | KDelete => 41
  | KThrow => 42
  | KMap => 43
  | KScillaVersion => 44
  | KType => 45
  | KOf => 46
  | KAs => 47
  | KProcedure => 48
  | KEmp => 49
  | KByStr => 50
  | KByStrWithSize => 51
  | KNumber => 52
  | KHexNumber => 53
  | KStringLiteral => 54
  | KIdentifier => 55
  | KSpecialIdentifier => 56
  | KCustomIdentifier => 57
  | KTemplateIdentifier => 58
  end.
Definition all_tks : list tk :=
  [KPlus; KAsterisk; KSemicolon; KColon; KDot; KPipe; KOpenBracket; KCloseBracket; KOpenParen; KCloseParen; KOpenBrace; KCloseBrace; KComma; KDoubleArrow; KArrow; KEquals; KAmpersand; KLeftArrow; KColonEquals; KAt; KMinus; KUnderscore; KForall; KBuiltin; KLibrary; KImport; KLet; KIn; KMatch; KWith; KEnd; KFun; KTfun; KContract; KTransition; KSend; KEvent; KEventType; KField; KAccept; KExists; KDelete; KThrow; KMap; KScillaVersion; KType; KOf; KAs; KProcedure; KEmp; KByStr; KByStrWithSize; KNumber; KHexNumber; KStringLiteral; KIdentifier; KSpecialIdentifier; KCustomIdentifier; KTemplateIdentifier].
Definition nt_code (A : nt) : N :=
  match A with
  | ByteString => 0
  | TypeNameIdentifier => 1
  | ImportedName => 2
  | ImportDeclarations => 3
  | MetaIdentifier => 4
  | VariableIdentifier => 5
  | BuiltinArguments => 6
  | RemainingTypes => 7
  | FunctionSignature => 8
  | ScillaType => 9
  | TypeArgument => 10
  | AddressType => 11
  | AddressTypeFieldList => 12
  | NextAddressTypeField => 13
  | AddressTypeField => 14
  | TypeMapKey => 15
  | TypeMapValue => 16
  | TypeMapValueArguments => 17
  | Program => 18
  | LibraryDefinition => 19
  | LibrarySingleDefinition => 20
  | TypedIdentifier => 21
  | TypeAnnotation => 22
  | TypeAlternativeClause => 23
  | TypeMapValueAllowingTypeArguments => 24
  | ContractTypeArguments => 25
  | FullExpression => 26
  | PatternMatchExpressionClause => 27
  | Pattern => 28
  | ArgumentPattern => 29
  | NextMessageEntry => 30
  | MessageEntry => 31
  | AtomicExpression => 32
  | ValueLiteral => 33
  | Statement => 34
  | NextStatement => 35
  | StatementBlock => 36
  | BlockchainFetchArguments => 37
  | ComponentId => 38
  | PatternMatchClause => 39
  | RemoteFetchStatement => 40
  | MapAccess => 41
  | ParameterPair => 42
  | NextParameterPair => 43
  | ComponentParameters => 44
  | ComponentDefinition => 45
  | TransitionDefinition => 46
  | ProcedureDefinition => 47
  | ComponentBody => 48
  | ContractDefinition => 49
  | ContractField => 50
  | WithConstraint => 51
  | HexNumber => 52
  | SignedInteger => 53
  | RegularId => 54
  | SpecialId => 55
  | TypeOrEnumLikeIdentifierId => 56
  | TemplateTypeId => 57
  | StringLiteral => 58
  end.
Definition all_nts : list nt :=
  [ByteString;
   TypeNameIdentifier;
   ImportedName;
   ImportDeclarations;
   MetaIdentifier;
   VariableIdentifier;
   BuiltinArguments;
   RemainingTypes;
   FunctionSignature;
   ScillaType;
   TypeArgument;
   AddressType;
   AddressTypeFieldList;
   NextAddressTypeField;
   AddressTypeField;
   TypeMapKey;
   TypeMapValue;
   TypeMapValueArguments;
   Program;
   LibraryDefinition;
   LibrarySingleDefinition;
   TypedIdentifier;
   TypeAnnotation;
   TypeAlternativeClause;
   TypeMapValueAllowingTypeArguments;
   ContractTypeArguments;
   FullExpression;
   PatternMatchExpressionClause;
   Pattern;
   ArgumentPattern;
   NextMessageEntry;
   MessageEntry;
   AtomicExpression;
   ValueLiteral;
   Statement;
   NextStatement;
   StatementBlock;
   BlockchainFetchArguments;
   ComponentId;
   PatternMatchClause;
   RemoteFetchStatement;
   MapAccess;
   ParameterPair;
   NextParameterPair;
   ComponentParameters;
   ComponentDefinition;
   TransitionDefinition;
   ProcedureDefinition;
   ComponentBody;
   ContractDefinition;
   ContractField;
   WithConstraint;
   HexNumber;
   SignedInteger;
   RegularId;
   SpecialId;
   TypeOrEnumLikeIdentifierId;
   TemplateTypeId;
   StringLiteral].

Definition tk_decode (c : N) : option tk := nth_error all_tks (N.to_nat c).
Definition nt_decode (c : N) : option nt := nth_error all_nts (N.to_nat c).
Lemma tk_decode_code k : tk_decode (tk_code k) = Some k.
Proof. destruct k; reflexivity. Qed.
Lemma nt_decode_code A : nt_decode (nt_code A) = Some A.
Proof. destruct A; reflexivity. Qed.
Lemma tk_code_inj k k' : tk_code k = tk_code k' -> k = k'.
Proof. intro H. generalize (tk_decode_code k). rewrite H, tk_decode_code. congruence. Qed.
Lemma nt_code_inj A A' : nt_code A = nt_code A' -> A = A'.
Proof. intro H. generalize (nt_decode_code A). rewrite H, nt_decode_code. congruence. Qed.
Lemma in_all_tks k : In k all_tks.
Proof. eapply nth_error_In. apply (tk_decode_code k). Qed.
Lemma in_all_nts A : In A all_nts.
Proof. eapply nth_error_In. apply (nt_decode_code A). Qed.

(** Symbols: terminals, non terminals, [x+], and the start symbol [__A] that
    lalrpop adds for every entry point [A]. *)
Inductive bsym := BT (k : tk) | BN (A : nt) | BP (a : atom) | BS (A : nt).

Definition bsym_code (b : bsym) : N :=
  match b with
  | BT k => tk_code k
  | BN A => 100 + nt_code A
  | BP (Tm k) => 200 + tk_code k
  | BP (Nt A) => 300 + nt_code A
  | BS A => 400 + nt_code A
  end.
Lemma tk_code_lt k : tk_code k < 100.
Proof. destruct k; reflexivity. Qed.
Lemma nt_code_lt A : nt_code A < 100.
Proof. destruct A; reflexivity. Qed.
Lemma bsym_code_inj b b' : bsym_code b = bsym_code b' -> b = b'.
Proof.
  destruct b as [k|A|[k|A]|A], b' as [k'|A'|[k'|A']|A']; cbn [bsym_code]; intro H;
    try pose proof (tk_code_lt k); try pose proof (nt_code_lt A);
    try pose proof (tk_code_lt k'); try pose proof (nt_code_lt A'); try lia;
    do 2 (try f_equal); first [apply tk_code_inj | apply nt_code_inj]; lia.
Qed.
Definition bsym_eqb (a b : bsym) : bool := bsym_code a =? bsym_code b.
Lemma bsym_eqb_eq a b : bsym_eqb a b = true <-> a = b.
Proof.
  unfold bsym_eqb. rewrite N.eqb_eq. split; [apply bsym_code_inj | intros ->; reflexivity].
Qed.
Definition bsym_eq_dec (a b : bsym) : {a = b} + {a <> b}.
Proof.
  destruct (bsym_eqb a b) eqn:E.
  - left. apply bsym_eqb_eq, E.
  - right. intro H. apply bsym_eqb_eq in H. congruence.
Defined.
Definition tk_eqb (a b : tk) : bool := tk_code a =? tk_code b.
Lemma tk_eqb_eq a b : tk_eqb a b = true <-> a = b.
Proof.
  unfold tk_eqb. rewrite N.eqb_eq. split; [apply tk_code_inj | intros ->; reflexivity].
Qed.

Definition bsym_type (b : bsym) : Type :=
  match b with
  | BT _ => item
  | BN A => nt_type A
  | BP a => list (atom_type a)
  | BS A => nt_type A
  end.
Fixpoint btuple (l : list bsym) : Type :=
  match l with
  | [] => unit
  | b :: r => (bsym_type b * btuple r)%type
  end.

Definition bsym_of (a : atom) : bsym := match a with Tm k => BT k | Nt A => BN A end.
Definition to_atom (a : atom) : bsym_type (bsym_of a) -> atom_type a :=
  match a with Tm _ => fun v => v | Nt _ => fun v => v end.
Definition of_atom (a : atom) : atom_type a -> bsym_type (bsym_of a) :=
  match a with Tm _ => fun v => v | Nt _ => fun v => v end.

(** One way of choosing the [?] and [*] of a right hand side. *)
Record variant (l : list sym) := mkvariant {
  v_rhs : list bsym; v_conv : btuple v_rhs -> tuple l }.
Arguments mkvariant {l} _ _.
Arguments v_rhs {l} _.
Arguments v_conv {l} _ _.

Definition v_take {s l} (b : bsym) (f : bsym_type b -> sym_type s) (v : variant l) : variant (s :: l) :=
  @mkvariant (s :: l) (b :: v_rhs v) (fun p => (f (fst p), v_conv v (snd p))).
Definition v_skip {s l} (x : sym_type s) (v : variant l) : variant (s :: l) :=
  @mkvariant (s :: l) (v_rhs v) (fun p => (x, v_conv v p)).

Fixpoint expand (l : list sym) : list (variant l) :=
  match l with
  | [] => [ @mkvariant [] [] (fun _ => tt) ]
  | s :: r =>
      match s with
      | One a => map (@v_take (One a) r (bsym_of a) (to_atom a)) (expand r)
      | Opt a => map (@v_skip (Opt a) r None) (expand r)
                 ++ map (@v_take (Opt a) r (bsym_of a) (fun v => Some (to_atom a v))) (expand r)
      | Star a => map (@v_skip (Star a) r []) (expand r)
                 ++ map (@v_take (Star a) r (BP a) (fun v => v)) (expand r)
      | Plus a => map (@v_take (Plus a) r (BP a) (fun v => v)) (expand r)
      end
  end.

Record fprod (b : bsym) := mkfprod {
  f_rhs : list bsym;
  f_act : source_position -> source_position -> btuple f_rhs -> bsym_type b }.
Arguments mkfprod b f_rhs f_act : clear implicits.
Arguments f_rhs {b} _.
Arguments f_act {b} _ _ _ _.

Definition flat_prods (A : nt) : list (fprod (BN A)) :=
  flat_map (fun p => map (fun v => mkfprod (BN A) (v_rhs v)
                                     (fun s e x => p_act p s e (v_conv v x)))
                         (expand (p_rhs p)))
           (prods A).

(** The normalised productions of every symbol. *)
Definition fprods (b : bsym) : list (fprod b) :=
  match b with
  | BT _ => []
  | BN A => flat_prods A
  | BP a => [ mkfprod (BP a) [bsym_of a] (fun _ _ '(x, _) => [to_atom a x]);
              mkfprod (BP a) [BP a; bsym_of a] (fun _ _ '(l, (x, _)) => l ++ [to_atom a x]) ]
  | BS A => [ mkfprod (BS A) [BN A] (fun _ _ '(x, _) => x) ]
  end.

Definition rhs_of (b : bsym) (j : nat) : option (list bsym) :=
  option_map f_rhs (nth_error (fprods b) j).

(** ** Parse trees of the normalised grammar *)
Inductive tree := Leaf (i : item) | Node (b : bsym) (j : nat) (ts : list tree).

Fixpoint yield (t : tree) : list item :=
  match t with
  | Leaf i => [i]
  | Node _ _ ts => flat_map yield ts
  end.

Inductive valid : bsym -> tree -> Prop :=
| valid_leaf : forall k i, kind_of (item_token i) = Some k -> valid (BT k) (Leaf i)
| valid_node : forall b j rhs ts, rhs_of b j = Some rhs -> Forall2 valid rhs ts ->
                             valid b (Node b j ts).

Fixpoint tree_start (t : tree) : source_position :=
  match t with
  | Leaf i => item_start i
  | Node _ _ ts => match ts with [] => start_position | t0 :: _ => tree_start t0 end
  end.
Fixpoint tree_end (t : tree) : source_position :=
  match t with
  | Leaf i => item_end i
  | Node _ _ ts =>
      (fix last (ts : list tree) : source_position :=
         match ts with
         | [] => start_position
         | t0 :: r => match r with [] => tree_end t0 | _ => last r end
         end) ts
  end.

Definition kind_is (i : item) (k : tk) : bool :=
  match kind_of (item_token i) with Some k' => tk_eqb k' k | None => false end.

(** The value of a tree, by the actions of the productions.  (The generated
    parser runs the actions while reducing; they are pure and total, so running
    them at the end is the same.) *)
Fixpoint sem (t : tree) (b : bsym) {struct t} : option (bsym_type b) :=
  match t with
  | Leaf i =>
      match b return option (bsym_type b) with
      | BT k => if kind_is i k then Some i else None
      | _ => None
      end
  | Node b' j ts =>
      if bsym_eqb b' b then
        match nth_error (fprods b) j with
        | None => None
        | Some f =>
            match (fix sems (ts : list tree) (l : list bsym) {struct ts} : option (btuple l) :=
                     match ts with
                     | [] => match l return option (btuple l) with [] => Some tt | _ => None end
                     | t0 :: r =>
                         match l return option (btuple l) with
                         | [] => None
                         | x :: l' =>
                             match sem t0 x, sems r l' with
                             | Some v, Some vs => Some (v, vs)
                             | _, _ => None
                             end
                         end
                     end) ts (f_rhs f)
            with
            | Some vs => Some (f_act f (tree_start t) (tree_end t) vs)
            | None => None
            end
        end
      else None
  end.

Fixpoint sems (ts : list tree) (l : list bsym) {struct ts} : option (btuple l) :=
  match ts with
  | [] => match l return option (btuple l) with [] => Some tt | _ => None end
  | t0 :: r =>
      match l return option (btuple l) with
      | [] => None
      | x :: l' =>
          match sem t0 x, sems r l' with
          | Some v, Some vs => Some (v, vs)
          | _, _ => None
          end
      end
  end.
