(** Property C65: reading a contract is running a flat program of stack commands.
    The machine and the translation are in Machine.v. *)
From Verif Require Import Chars Lexer Ast Grammar Cfg Parser Types Emitter Contract EmitSpec EmitSig PropParse2 PropEmit Machine MachineFacts.

(** Empty stack, empty contract. *)
Definition start : state := ([], contract_default).

(** What [Contract::from_str] returns for every text that parses. *)
Theorem C65_machine : forall U debug text p, parse_str U Program text = POk p ->
  from_str U debug text =
  match execs debug (code_program p) start with
  | Done s => RValue (snd s)
  | Fail m _ => RError (ParseErrorEmit m)
  | Abort => RPanic
  end.
Proof.
  intros U debug text p H. rewrite (from_str_parsed _ _ _ _ H). unfold emit_api. rewrite emit_machine. fold start.
  destruct (execs debug (code_program p) start); reflexivity.
Qed.

(** Programs with the same commands give the same answer. *)
Theorem C65_same_code : forall U debug text text' p p', parse_str U Program text = POk p -> parse_str U Program text' = POk p' ->
  code_program p = code_program p' -> from_str U debug text = from_str U debug text'.
Proof. intros U debug text text' p p' H H' E. rewrite (C65_machine _ _ _ _ H), (C65_machine _ _ _ _ H'), E. reflexivity. Qed.

(** An answer other than a contract comes from one command: everything before it
    is executed, nothing after it matters. *)
Theorem C65_one_command : forall U debug text p, parse_str U Program text = POk p ->
  (forall c, from_str U debug text <> RValue c) ->
  exists pre c post s, code_program p = pre ++ c :: post /\ execs debug pre start = Done s
    /\ from_str U debug text = match exec debug c s with Done _ => RBug | Fail m _ => RError (ParseErrorEmit m) | Abort => RPanic end
    /\ (forall s', exec debug c s <> Done s')
    /\ forall text' p' post', parse_str U Program text' = POk p' -> code_program p' = pre ++ c :: post' ->
         from_str U debug text' = from_str U debug text.
Proof.
  intros U debug text p H Hn.
  assert (Split : forall l s, (forall s', execs debug l s <> Done s') ->
    exists pre c post s1, l = pre ++ c :: post /\ execs debug pre s = Done s1 /\ (forall s', exec debug c s1 <> Done s')).
  { induction l as [|c l IH]; intros s Hs; [exfalso; apply (Hs s); reflexivity|]. destruct (exec debug c s) as [s1|m s1|] eqn:E.
    - destruct (IH s1) as (pre & c' & post & s2 & El & Ep & Ec).
      { intros s' Hs'. apply (Hs s'). cbn [execs]. rewrite E. exact Hs'. }
      exists (c :: pre), c', post, s2. subst l. split; [reflexivity|]. split; [cbn [execs]; rewrite E; exact Ep|exact Ec].
    - exists [], c, l, s. split; [reflexivity|]. split; [reflexivity|]. rewrite E. discriminate.
    - exists [], c, l, s. split; [reflexivity|]. split; [reflexivity|]. rewrite E. discriminate. }
  assert (Out : forall text p pre c post s1, parse_str U Program text = POk p -> code_program p = pre ++ c :: post -> execs debug pre start = Done s1 ->
    (forall s', exec debug c s1 <> Done s') ->
    from_str U debug text = match exec debug c s1 with Done _ => RBug | Fail m _ => RError (ParseErrorEmit m) | Abort => RPanic end).
  { intros text0 p0 pre c post s1 H0 Ec Ep Hc. rewrite (C65_machine _ _ _ _ H0), Ec, execs_app, Ep. cbn [andthen execs].
    destruct (exec debug c s1) as [s'| |] eqn:E; [exfalso; exact (Hc s' eq_refl)|reflexivity|reflexivity]. }
  rewrite (C65_machine _ _ _ _ H) in Hn. destruct (Split (code_program p) start) as (pre & c & post & s1 & Ec & Ep & Hc).
  { intros s' E. rewrite E in Hn. exact (Hn _ eq_refl). }
  exists pre, c, post, s1. split; [exact Ec|]. split; [exact Ep|]. split; [exact (Out _ _ _ _ _ _ H Ec Ep Hc)|]. split; [exact Hc|].
  intros text' p' post' H' Ec'. rewrite (Out _ _ _ _ _ _ H' Ec' Ep Hc), (Out _ _ _ _ _ _ H Ec Ep Hc). reflexivity.
Qed.

(** ** Witnesses *)
Notation nm s := (Name (lit s) KUnknown).
(** An ordinary contract: parameters are read twice, fields and transitions once. *)
Example C65_witness : exists p, parse_str U_none Program
    (lit "scilla_version 0 contract C (a : List (Option Bool)) field f : Map A.K Int32 = e procedure P () end transition T (x : Bool) end") = POk p
  /\ code_program p =
     [nm "C"; SetName (lit "C");
      nm "List"; ToType; Args [[nm "Option"; ToType; Args [[nm "Bool"; ToType]]]]; Declare (lit "a"); AddParam;
      nm "List"; ToType; Args [[nm "Option"; ToType; Args [[nm "Bool"; ToType]]]]; Declare (lit "a");
      nm "A"; nm "K"; ToType; nm "Int32"; ToType; ToMap; Declare (lit "f"); AddField;
      Name (lit "T") KComponentName; AddTransition [[nm "Bool"; ToType; Declare (lit "x")]]]
  /\ execs no_debug (code_program p) start =
     Done ([IrIdentifier (mkId (lit "A") KUnknown); VariableDeclaration (mkField (lit "a") (TyList (TyOption TyBool))); IrIdentifier (mkId (lit "C") KUnknown)],
           mkContract (lit "C") [mkField (lit "a") (TyList (TyOption TyBool))] [mkField (lit "f") (TyMap (Other (lit "K")) Int32)]
             [mkTransition (lit "T") [mkField (lit "x") TyBool]]).
Proof. eexists. split; [vm_compute; reflexivity|]. split; vm_compute; reflexivity. Qed.
(** An error inside an address type is forgotten, what it took from the stack is
    not put back: the name of the contract becomes the key of the map. *)
Example C65_witness_attempt : exists p, parse_str U_none Program
    (lit "scilla_version 0 contract C (a : Int32) field f : Map (Event with end) Int32 = e") = POk p
  /\ (exists pre, code_program p = pre ++ [Attempt [ToType; Record [] []]; ToType; nm "Int32"; ToType; ToMap; Declare (lit "f"); AddField])
  /\ exists s, execs no_debug (code_program p) start = Done s /\ c_fields (snd s) = [mkField (lit "f") (TyMap (Other (lit "C")) Int32)].
Proof.
  eexists. split; [vm_compute; reflexivity|]. split.
  - eexists [_; _; _; _; _; _; _; _; _]. vm_compute. reflexivity.
  - eexists. split; vm_compute; reflexivity.
Qed.
(** The command that fails. *)
Example C65_witness_fails : exists p, parse_str U_none Program
    (lit "scilla_version 0 contract C (a : Int32) field f : Event = e field g : forall 'A. Bool = e") = POk p
  /\ (exists s, execs no_debug (firstn 9 (code_program p)) start = Done s
     /\ skipn 9 (code_program p) = [ToType; Declare (lit "f"); AddField; Stop; Declare (lit "g"); AddField]
     /\ exec no_debug ToType s = Fail (lit "Expected symbol name, but found ?.") ([IrIdentifier (mkId (lit "C") KUnknown)], mkContract (lit "C") [mkField (lit "a") Int32] [] []))
  /\ (forall c, from_str U_none no_debug (lit "scilla_version 0 contract C (a : Int32) field f : Event = e field g : forall 'A. Bool = e") <> RValue c).
Proof.
  eexists. split; [vm_compute; reflexivity|]. split.
  - eexists. split; [vm_compute; reflexivity|]. split; vm_compute; reflexivity.
  - intro c. vm_compute. discriminate.
Qed.
