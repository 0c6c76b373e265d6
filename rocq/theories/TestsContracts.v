(** Generated by tools/gen_contract_tests.py from /repo/tests/full_contract_tests.rs:
    the expectations of the repository's own tests, run on the model.  These
    are tests of the model, not proofs of properties. *)
From Verif Require Import Chars Lexer Ast Grammar Parser Types Visitor Emitter Contract.
Local Definition dbg (_ : stack_object) : str := [].
Local Definition run (s : list string) : api contract := from_str U_none dbg (flat_map lit s).
Local Definition is_ok (r : api contract) : bool := match r with RValue _ => true | _ => false end.

Local Definition src_ByStr : list string := ["scilla_version 0

contract AllByStrVariants
  (
    bystr : ByStr,
    bystr32 : ByStr32,
    raw_address: ByStr20,
    library_address : ByStr20 with library end,
    contract_address : ByStr20 with contract end,
    detailed_contract_address :
      ByStr20 with contract
        field allowances : Map ByStr20 (Map ByStr20 Uint128),
        field balances : Map ByStr20 Uint128,
        field total_supply : Uint128
        end,
    complex_contract_address: ByStr20 with contract
      field impl";
"ementation: ByStr20 with contract
        field services: Map String ByStr20,
        field utility: Map String Uint128 end,
      field dns: Map String ByStr20,
      field guardians: Map String ByStr20 with contract field verification_methods: Map String ByStr33 end end
  )

transition ArbitrageFromXCAD
  (token : ByStr20 with contract field balances : Map ByStr20 Uint128 end)
end

transition BuyNFTUsername(
  username: String,
  guardianship: Option ByStr20 with contract field verification_me";
"thods: Map String ByStr33 end,
  id: String,
  tyron: Option Uint128
  )
end"]%string.

Local Definition src_CallTransition : list string := ["scilla_version 0
(***************************************************)
(*               Basic setter and getter           *)
(***************************************************)
contract CallTransition
()

transition call_uint32(v : Uint32)
end

transition call_uint64(v : Uint64)
end

transition call_uint128(v : Uint128)
end

transition call_uint256(v : Uint256)
end

transition call_int32(v : Int32)
end

transition call_int64(v : Int64)
end

transition call_int128(v : Int128)
end

transition ca";
"ll_string(v : String)
end

transition call_address(v : ByStr20)
end

transition call_option_bool(v : (Option Bool))
end

transition call_bool(v : Bool)
end

transition call_bnum(v : BNum)
end

transition call_pair(v : Pair String Uint32)
end

transition call_list(v : List ByStr20)
end

transition call_list_2(v: (List (Pair ByStr20 (List (Pair ByStr20 Uint32)))))
end

transition call_list_3(v: (List (Pair String String)))
end

transition call_list_4(v: (List (Pair ByStr20 (List (Pair ByStr20 (Lis";
"t (Pair Uint32 Uint128)))))))
end

transition call_list_5(v: (List (Pair ByStr20 (List (Pair BNum Uint128)))))
end"]%string.

Local Definition src_FungibleToken : list string := ["scilla_version 0

(***************************************************)
(*               Associated library                *)
(***************************************************)
import IntUtils
library FungibleToken

let one_msg = 
  fun (msg : Message) => 
  let nil_msg = Nil {Message} in
  Cons {Message} msg nil_msg

let two_msgs =
fun (msg1 : Message) =>
fun (msg2 : Message) =>
  let msgs_tmp = one_msg msg2 in
  Cons {Message} msg1 msgs_tmp

(* Error events *)
type Error =
| CodeIsSender
| ";
"CodeInsufficientFunds
| CodeInsufficientAllowance

let make_error =
  fun (result : Error) =>
    let result_code = 
      match result with
      | CodeIsSender              => Int32 -1
      | CodeInsufficientFunds     => Int32 -2
      | CodeInsufficientAllowance => Int32 -3
      end
    in
    { _exception : ""Error""; code : result_code }
  
let zero = Uint128 0

(* Dummy user-defined ADT *)
type Unit =
| Unit

let get_val =
  fun (some_val: Option Uint128) =>
  match some_val with
  | Some ";
"val => val
  | None => zero
  end

(***************************************************)
(*             The contract definition             *)
(***************************************************)

contract FungibleToken
(
  contract_owner: ByStr20,
  name : String,
  symbol: String,
  decimals: Uint32,
  init_supply : Uint128
)

(* Mutable fields *)

field total_supply : Uint128 = init_supply

field balances: Map ByStr20 Uint128 
  = let emp_map = Emp ByStr20 Uint128 in
    builtin put emp_map ";
"contract_owner init_supply

field allowances: Map ByStr20 (Map ByStr20 Uint128) 
  = Emp ByStr20 (Map ByStr20 Uint128)

(**************************************)
(*             Procedures             *)
(**************************************)

procedure ThrowError(err : Error)
  e = make_error err;
  throw e
end

procedure IsNotSender(address: ByStr20)
  is_sender = builtin eq _sender address;
  match is_sender with
  | True =>
    err = CodeIsSender;
    ThrowError err
  | False =>
  end
end

p";
"rocedure AuthorizedMoveIfSufficientBalance(from: ByStr20, to: ByStr20, amount: Uint128)
  o_from_bal <- balances[from];
  bal = get_val o_from_bal;
  can_do = uint128_le amount bal;
  match can_do with
  | True =>
    (* Subtract amount from from and add it to to address *)
    new_from_bal = builtin sub bal amount;
    balances[from] := new_from_bal;
    (* Adds amount to to address *)
    get_to_bal <- balances[to];
    new_to_bal = match get_to_bal with
    | Some bal => builtin add bal amoun";
"t
    | None => amount
    end;
    balances[to] := new_to_bal
  | False =>
    (* Balance not sufficient *)
    err = CodeInsufficientFunds;
    ThrowError err
  end
end

(***************************************)
(*             Transitions             *)
(***************************************)

(* @dev: Increase the allowance of an approved_spender over the caller tokens. Only token_owner allowed to invoke.   *)
(* param spender:      Address of the designated approved_spender.               ";
"                                    *)
(* param amount:       Number of tokens to be increased as allowance for the approved_spender.                       *)
transition IncreaseAllowance(spender: ByStr20, amount: Uint128)
  IsNotSender spender;
  some_current_allowance <- allowances[_sender][spender];
  current_allowance = get_val some_current_allowance;
  new_allowance = builtin add current_allowance amount;
  allowances[_sender][spender] := new_allowance;
  e = {_eventname : ""IncreasedAllowan";
"ce""; token_owner : _sender; spender: spender; new_allowance : new_allowance};
  event e
end

(* @dev: Decrease the allowance of an approved_spender over the caller tokens. Only token_owner allowed to invoke. *)
(* param spender:      Address of the designated approved_spender.                                                 *)
(* param amount:       Number of tokens to be decreased as allowance for the approved_spender.                     *)
transition DecreaseAllowance(spender: ByStr20, amount";
": Uint128)
  IsNotSender spender;
  some_current_allowance <- allowances[_sender][spender];
  current_allowance = get_val some_current_allowance;
  new_allowance =
    let amount_le_allowance = uint128_le amount current_allowance in
      match amount_le_allowance with
      | True => builtin sub current_allowance amount
      | False => zero
      end;
  allowances[_sender][spender] := new_allowance;
  e = {_eventname : ""DecreasedAllowance""; token_owner : _sender; spender: spender; new_allowanc";
"e : new_allowance};
  event e
end

(* @dev: Moves an amount tokens from _sender to the recipient. Used by token_owner. *)
(* @dev: Balance of recipient will increase. Balance of _sender will decrease.      *)
(* @param to:  Address of the recipient whose balance is increased.                 *)
(* @param amount:     Amount of tokens to be sent.                                  *)
transition Transfer(to: ByStr20, amount: Uint128)
  AuthorizedMoveIfSufficientBalance _sender to amount;
  e = {_even";
"tname : ""TransferSuccess""; sender : _sender; recipient : to; amount : amount};
  event e;
  (* Prevent sending to a contract address that does not support transfers of token *)
  msg_to_recipient = {_tag : ""RecipientAcceptTransfer""; _recipient : to; _amount : zero; 
                      sender : _sender; recipient : to; amount : amount};
  msg_to_sender = {_tag : ""TransferSuccessCallBack""; _recipient : _sender; _amount : zero; 
                  sender : _sender; recipient : to; amount : amount";
"};
  msgs = two_msgs msg_to_recipient msg_to_sender;
  send msgs
end

(* We expect this call to revert entire transaction                                 *)
(* @dev: Moves an amount tokens from _sender to the recipient. Used by token_owner. *)
(* @dev: Balance of recipient will increase. Balance of _sender will decrease.      *)
(* @param to:  Address of the recipient whose balance is increased.                 *)
(* @param amount:     Amount of tokens to be sent.                                ";
"  *)
transition TransferFailed(to: ByStr20, amount: Uint128)
  AuthorizedMoveIfSufficientBalance _sender to amount;
  e = {_eventname : ""TransferSuccess""; sender : _sender; recipient : to; amount : amount};
  event e;
  (* Prevent sending to a contract address that does not support transfers of token *)
  msg_to_recipient = {_tag : ""RecipientAcceptTransfer""; _recipient : to; _amount : zero;
                      sender : _sender; recipient : to; amount : amount; _EvmCall: ""foo""};
  msg_to_sender";
" = {_tag : ""TransferSuccessCallBack""; _recipient : _sender; _amount : zero;
                  sender : _sender; recipient : to; amount : amount; _EvmCall: ""bar""};
  msgs = two_msgs msg_to_recipient msg_to_sender;
  send msgs
end

(* @dev: Move a given amount of tokens from one address to another using the allowance mechanism. The caller must be an approved_spender. *)
(* @dev: Balance of recipient will increase. Balance of token_owner will decrease.                                               ";
"         *)
(* @param from:    Address of the token_owner whose balance is decreased.                                                                 *)
(* @param to:      Address of the recipient whose balance is increased.                                                                   *)
(* @param amount:  Amount of tokens to be transferred.                                                                                    *)
transition TransferFrom(from: ByStr20, to: ByStr20, amount: Uint1";
"28)
  o_spender_allowed <- allowances[from][_sender];
  allowed = get_val o_spender_allowed;
  can_do = uint128_le amount allowed;
  match can_do with
  | True =>
    AuthorizedMoveIfSufficientBalance from to amount;
    e = {_eventname : ""TransferFromSuccess""; initiator : _sender; sender : from; recipient : to; amount : amount};
    event e;
    new_allowed = builtin sub allowed amount;
    allowances[from][_sender] := new_allowed;
    (* Prevent sending to a contract address that does not supp";
"ort transfers of token *)
    msg_to_recipient = {_tag: ""RecipientAcceptTransferFrom""; _recipient : to; _amount: zero; 
                        initiator: _sender; sender : from; recipient: to; amount: amount};
    msg_to_sender = {_tag: ""TransferFromSuccessCallBack""; _recipient: _sender; _amount: zero; 
                    initiator: _sender; sender: from; recipient: to; amount: amount};
    msgs = two_msgs msg_to_recipient msg_to_sender;
    send msgs
  | False =>
    err = CodeInsufficientAll";
"owance;
    ThrowError err
  end
end
"]%string.

Local Definition src_GetFields : list string := ["scilla_version 0
(***************************************************)
(*               Basic setter and getter           *)
(***************************************************)
contract GetFields ()

(*Integer fields*)
field field_uint32: Uint32 = Uint32 0
field field_uint64: Uint64 = Uint64 1
field field_uint128: Uint128 = Uint128 2
field field_uint256: Uint256 = Uint256 3
field field_int32: Int32 = Int32 -1
field field_int64: Int64 = Int64 -4
field field_int128: Int128 = Int128 -2
field fiel";
"d_bnum: BNum = BNum 101

(*String fields*)
field field_string: String = ""test""
field field_address: ByStr20 = 0x1234567890123456789012345678901234567890

(*ADT*)
field field_bool_false: Bool = False
field field_bool_true: Bool = True
field field_option_bystr20_none: Option ByStr20 = None {ByStr20}
field field_option_bystr20_some: Option ByStr20 =
  let addr = 0x1234567890123456789012345678901234567890 in
  Some {ByStr20} addr

field field_option_int32_some: Option Int32 =
  let ten = Int32 10 in";
"
  Some {Int32} ten

field field_option_bool_some: Option Bool =
  let v = True in
  Some {Bool} v

field field_pair: Pair String Uint32 =
              let s1 = ""Hello"" in
              let num = Uint32 2 in
              Pair {String Uint32} s1 num


field balances: Map ByStr20 Uint128 
  = let emp_map = Emp ByStr20 Uint128 in
    builtin put emp_map contract_owner init_supply

field field_list : List Int32 =
    let nil = Nil {Int32} in
    let one = Int32 1 in
    let l = Cons {Int32} one ni";
"l in
    let two = Int32 2 in
    Cons {Int32} two l
"]%string.

Local Definition src_HelloWorld : list string := ["scilla_version 0

(* HelloWorld contract *)

import ListUtils

(***************************************************)
(*               Associated library                *)
(***************************************************)
library HelloWorld

let not_owner_code = Int32 1
let set_hello_code = Int32 2

(***************************************************)
(*             The contract definition             *)
(***************************************************)

contract HelloWorld
(owner: ByStr";
"20)

field welcome_msg : String = ""Hello world!""

transition setHello (msg : String)
    is_owner = builtin eq owner _sender;
    match is_owner with
    | False =>
    e = {_eventname : ""setHello()""; code : not_owner_code};
    event e
    | True =>
    welcome_msg := msg;
    e = {_eventname : ""setHello()""; code : set_hello_code};
    event e
    end
end


transition getHello ()
    r <- welcome_msg;
    e = {_eventname: ""getHello()""; msg: r};
    event e
end"]%string.

Local Definition src_Map : list string := ["scilla_version 0
contract DifferentMaps
()

field first_map: Map String BNum
                  = Emp String BNum
field status3days: Map String (Pair (ByStr20) (BNum))
                  = Emp String (Pair (ByStr20) (BNum))
field reward_pairs : Map ByStr20 (List Uint128)
                  = Emp (ByStr20) (List Uint128)
field user_withdrawal_dict: Option Map BNum Uint128 = None {Map BNum Uint128}"]%string.

Local Definition src_SendZil : list string := ["scilla_version 0

contract SendZil
()
field test_field : Uint256 = Uint256 0
field bool : Bool = True
field empty_bool : Option Bool = None {Bool}
field some_int : Option Int32 = let ten = Int32 10 in
  Some {Int32} ten

field pair: Pair String Uint32 =
              let s1 = ""Hello"" in
              let num = Uint32 2 in
              Pair {String Uint32} s1 num

field list : List Int32 =
  let nil = Nil {Int32} in
  let one = Int32 1 in
Cons {Int32} one nil

transition acceptZil ()
  accept;
 ";
" v <- _balance;
  ev = {_eventname: ""currentBalance""; value: v};
  event ev
end

transition updateTestField (val : Uint256)
  test_field := val
end

transition dontAcceptZil ()
  v <- _balance;
  ev = {_eventname: ""currentBalance""; value: v};
  event ev
end

(* See ZIL-5165 *)
transition fundUserWithTag( user : ByStr20, amount : Uint128)
  msg = { _tag : ""AddFunds""; _recipient : user ; _amount : amount };
  no_msg = Nil {Message};
  msgs = Cons {Message} msg no_msg;
  send msgs
end

transition f";
"undUser (user : ByStr20, amount : Uint128)
  msg = { _tag : """" ; _recipient : user ; _amount : amount };
  no_msg = Nil {Message};
  msgs = Cons {Message} msg no_msg;
  send msgs
end

transition fundContract (contract_address : ByStr20, amount : Uint128)
  msg = { _tag : ""acceptZil"" ; _recipient : contract_address ; _amount : amount };
  no_msg = Nil {Message};
  msgs = Cons {Message} msg no_msg;
  send msgs
end

transition callOtherContract (contract_address : ByStr20, tag : String, value : Uin";
"t256)
  msg = { _tag : tag ; _recipient : contract_address ; _amount : Uint128 0 ; val: value};
  no_msg = Nil {Message};
  msgs = Cons {Message} msg no_msg;
  send msgs
end"]%string.

Local Definition src_SetGet : list string := ["scilla_version 0
(***************************************************)
(*               Basic setter and getter           *)
(***************************************************)
contract SetGet
()
field value: Uint128 = Uint128 0
field string_value: String = ""test""
field address_value: ByStr20 = 0x1234567890123456789012345678901234567890
field option_bystr20: Option ByStr20 = None {ByStr20}

transition set_uint128(v : Uint128)
  value := v
end

transition emit()
  v <- value;
  ev = {_eventname";
": ""Emit""; sender: _sender; value: v};
  event ev
end

transition set_string(v : String)
  string_value := v
end

transition get_string()
  v <- string_value;
  ev = {_eventname: ""get_string""; sender: _sender; value: v};
  event ev
end

transition set_address(v : ByStr20)
  address_value := v
end

transition get_address()
  v <- address_value;
  ev = {_eventname: ""get_address""; sender: _sender; value: v};
  event ev
end

transition set_option_bystr20(v : (Option ByStr20))
    option_bystr20 := v
";
"end"]%string.

Local Definition src_StakingContract : list string := ["scilla_version 0

import
  BoolUtils
  IntUtils
  ListUtils
  PairUtils

library StakingContract

type Denom =
| Zil
| Token of ByStr20

type Coins =
| Coins of Denom Uint128

type RewardParam =
| RewardParam of Uint128 Uint128 Uint64 Uint64

type Stake =
| Stake of Uint128 Uint64 Uint64 Uint128

type RewardResult =
| RewardResult of Uint128 Uint128

let fee_denom = Uint256 10000

let zil_address = 0x0000000000000000000000000000000000000000

let bool_active = True

let bool_inactive = False

let";
" zil = Zil

let zero = Uint128 0

let zero_i256 = Int256 0

let min_bps = Uint128 1

let max_bps = Uint128 10000

let seconds_per_year = Uint128 31536000

let true = True

let one_msg =
  fun (m : Message) =>
    let e = Nil {(Message)} in
    Cons {(Message)} m e

type Error =
| CodeNotOwner
| ContractFrozenFailure
| Unauthorized
| ContractFrozenFailurePaused
| ContractFrozenFailureNotPaused
| RewardTokenNotFound
| NoStakeFoundBySender
| AmountGreaterThanStakedAmount
| NotAllowedToWithdrawStake";
"Tokens
| InvalidBPSError
| CodeInsufficientFunds

let make_error =
  fun (result : Error) =>
    let result_code =
      match result with
      | CodeNotOwner => Int32 -1
      | ContractFrozenFailure => Int32 -2
      | Unauthorized => Int32 -3
      | ContractFrozenFailurePaused => Int32 -4
      | ContractFrozenFailureNotPaused => Int32 -5
      | RewardTokenNotFound => Int32 -6
      | NoStakeFoundBySender => Int32 -7
      | AmountGreaterThanStakedAmount => Int32 -8
      | NotAllowedToWit";
"hdrawStakeTokens => Int32 -9
      | InvalidBPSError => Int32 -10
      | CodeInsufficientFunds => Int32 -11
      end
    in
    { _exception : ""Error""; code : result_code }

let get_value =
  fun (var : Option Uint128) =>
    match var with
    | Some v => v
    | None => zero
    end

let uint64_to_uint128 : Uint64 -> Uint128 =
  fun (x : Uint64) =>
    let ox128 = builtin to_uint128 x in
    match ox128 with
    | None => let zero = Uint128 0 in builtin div zero zero
    | Some x128 => x128
";
"    end

let int256_to_uint128 : Int256 -> Uint128 =
  fun (x : Int256) =>
    let ox128 = builtin to_uint128 x in
    match ox128 with
    | None => let zero = Uint128 0 in builtin div zero zero
    | Some x128 => x128
    end

let is_admin_or_owner : (Map ByStr20 Bool) -> ByStr20 -> ByStr20 -> Bool =
  fun (administrators : Map ByStr20 Bool) =>
    fun (owner : ByStr20) =>
      fun (sender : ByStr20) =>
        let is_admin = builtin contains administrators sender in
        let is_owner = bu";
"iltin eq sender owner in
        let allowed = orb is_admin is_owner in
        match allowed with
        | True => True
        | False => False
        end

let update_reward_param : RewardParam -> Uint64 -> RewardParam =
  fun (reward_param : RewardParam) =>
    fun (current_timestamp : Uint64) =>
      match reward_param with
      | RewardParam apr treasury_fee start_timestamp end_timestamp =>
        let zero_timestamp = Uint64 0 in
        let is_eq_timestamp_zero = builtin eq end_timest";
"amp zero_timestamp in
        match is_eq_timestamp_zero with
        | True => RewardParam apr treasury_fee start_timestamp current_timestamp
        | False => RewardParam apr treasury_fee start_timestamp end_timestamp
        end
      end

let update_all_reward_params :
  forall 'A. (List RewardParam) -> Uint64 -> List RewardParam =
  tfun 'A =>
    fun (l : List RewardParam) =>
      fun (current_timestamp : Uint64) =>
        let foldl = @list_foldl (RewardParam) (List RewardParam) in
    ";
"    let init = Nil {(RewardParam)} in
        let iter =
          fun (reward_params_list : List RewardParam) =>
            fun (reward_param : RewardParam) =>
              let updated_reward_param =
                update_reward_param reward_param current_timestamp
              in
              Cons {(RewardParam)} updated_reward_param reward_params_list
        in
        foldl iter init l

let is_timestamp_let : Uint64 -> Uint64 -> Bool =
  fun (ts1 : Uint64) =>
    fun (ts2 : Uint64) =>
";
"      let is_ts1_le_ts2 = uint64_lt ts1 ts2 in
      let is_ts1_eq_ts2 = builtin eq ts1 ts2 in
      orb is_ts1_le_ts2 is_ts1_eq_ts2

let get_time_difference : Uint128 -> Uint64 -> RewardParam -> Uint64 -> Uint64 =
  fun (staked_amount : Uint128) =>
    fun (staked_timestamp : Uint64) =>
      fun (reward_param : RewardParam) =>
        fun (current_timestamp : Uint64) =>
          match reward_param with
          | RewardParam apr treasury_fee start_timestamp end_timestamp =>
            let z";
"ero_timestamp = Uint64 0 in
            let microseconds = Uint64 1000000 in
            let is_eq_block_zero = builtin eq end_timestamp zero_timestamp in
            match is_eq_block_zero with
            | True =>
              let is_staked_timestamp_leq_start_timestamp =
                is_timestamp_let staked_timestamp start_timestamp
              in
              match is_staked_timestamp_leq_start_timestamp with
              | True =>
                let diff = builtin sub current_time";
"stamp start_timestamp in
                builtin div diff microseconds
              | False =>
                let diff = builtin sub current_timestamp staked_timestamp in
                builtin div diff microseconds
              end
            | False =>
              let is_staked_timestamp_leq_end_timestamp =
                is_timestamp_let staked_timestamp end_timestamp
              in
              match is_staked_timestamp_leq_end_timestamp with
              | True =>
              ";
"  let is_staked_timestamp_leq_start_timestamp =
                  is_timestamp_let staked_timestamp start_timestamp
                in
                match is_staked_timestamp_leq_start_timestamp with
                | True =>
                  let diff = builtin sub end_timestamp start_timestamp in
                  builtin div diff microseconds
                | False =>
                  let diff = builtin sub end_timestamp staked_timestamp in
                  builtin div diff microseconds
";
"                end
              | False => zero_timestamp
              end
            end
          end

let uint128_to_uint256 : Uint128 -> Uint256 =
  fun (x : Uint128) =>
    let ox256 = builtin to_uint256 x in
    match ox256 with
    | None => let zero = Uint256 0 in builtin div zero zero
    | Some x256 => x256
    end

let muldiv : Uint128 -> Uint128 -> Uint128 -> Uint128 -> Uint256 -> Uint128 =
  fun (w : Uint128) =>
    fun (x : Uint128) =>
      fun (y : Uint128) =>
        fun (z ";
": Uint128) =>
          fun (f : Uint256) =>
            let w256 = uint128_to_uint256 w in
            let x256 = uint128_to_uint256 x in
            let y256 = uint128_to_uint256 y in
            let z256 = uint128_to_uint256 z in
            let w_mul_x256 = builtin mul w256 x256 in
            let w_mul_x_mul_y256 = builtin mul w_mul_x256 y256 in
            let w_mul_x_mul_y256_div_z256 = builtin div w_mul_x_mul_y256 z256 in
            let res256 = builtin div w_mul_x_mul_y256_div_z256 f i";
"n
            let ores128 = builtin to_uint128 res256 in
            match ores128 with
            | None =>
              let max_uint128 = Uint128 340282366920938463463374607431768211455
              in
              let fourtytwo128 = Uint128 42 in
              builtin mul max_uint128 fourtytwo128
            | Some res128 => res128
            end

let calculate_treasury_fee_amt : Uint128 -> Uint256 -> Uint128 -> Uint128 =
  fun (treasury_fee : Uint128) =>
    fun (fee_denom : Uint256) =>";
"
      fun (amount : Uint128) =>
        let tf256 = uint128_to_uint256 treasury_fee in
        let amt256 = uint128_to_uint256 amount in
        let tf_mul_amt = builtin mul tf256 amt256 in
        let res256 = builtin div tf_mul_amt fee_denom in
        let ores128 = builtin to_uint128 res256 in
        match ores128 with
        | None =>
          let max_uint128 = Uint128 340282366920938463463374607431768211455 in
          let fourtytwo128 = Uint128 42 in
          builtin mul max_uint128 ";
"fourtytwo128
        | Some res128 => res128
        end

let calculate_rewards :
  forall 'A.
    (List RewardParam) ->
    Uint128 ->
    Uint64 ->
    Uint64 ->
    Uint128 ->
    Uint256 ->
    RewardResult =
  tfun 'A =>
    fun (l : List RewardParam) =>
      fun (staked_amount : Uint128) =>
        fun (staked_timestamp : Uint64) =>
          fun (current_timestamp : Uint64) =>
            fun (seconds_per_year : Uint128) =>
              fun (fee_denom : Uint256) =>
                let f";
"oldl = @list_foldl (RewardParam) (RewardResult) in
                let init = RewardResult zero zero in
                let iter =
                  fun (rewards : RewardResult) =>
                    fun (reward_param : RewardParam) =>
                      match reward_param with
                      | RewardParam apr treasury_fee start_block end_block =>
                        let time_diff_ui64 =
                          get_time_difference
                            staked_amount staked";
"_timestamp reward_param current_timestamp
                        in
                        let time_diff = uint64_to_uint128 time_diff_ui64 in
                        let res_total =
                          muldiv
                            staked_amount time_diff apr seconds_per_year fee_denom
                        in
                        let treasury_fee_amt =
                          calculate_treasury_fee_amt
                            treasury_fee fee_denom res_total
           ";
"             in
                        let res = builtin sub res_total treasury_fee_amt in
                        match rewards with
                        | RewardResult curr_rewards_count curr_treasury_fee_amt =>
                          let new_rewards_count =
                            builtin add curr_rewards_count res
                          in
                          let new_treasury_fee_amt =
                            builtin add curr_treasury_fee_amt treasury_fee_amt
        ";
"                  in
                          RewardResult new_rewards_count new_treasury_fee_amt
                        end
                      end
                in
                foldl iter init l

let portion =
  fun (amount : Uint128) =>
    fun (bps : Uint128) =>
      let max_bps = Uint128 10000 in
      let x = builtin div max_bps bps in
      let result = builtin div amount x in
      result

let option_value =
  tfun 'A =>
    fun (default : 'A) =>
      fun (maybe_val : Option '";
"A) =>
        match maybe_val with
        | Some v => v
        | None => default
        end

let option_timestamp = @option_value (Uint64)

let get_prev_bnum =
  fun (cur_blk : BNum) =>
    let one_bnum = BNum 1 in
    let zero_block = BNum 0 in
    let prev_block = builtin bsub cur_blk one_bnum in
    let prev_block_uint128 = int256_to_uint128 prev_block in
    builtin badd zero_block prev_block_uint128


contract StakingContract
  (
    initial_owner : ByStr20,
    initial_staking_token_add";
"ress :
      ByStr20 with contract
        field allowances : Map ByStr20 (Map ByStr20 Uint128),
        field balances : Map ByStr20 Uint128,
        field total_supply : Uint128
      end
  )


field owner : ByStr20 = initial_owner

field staking_token_address : ByStr20 = initial_staking_token_address

field pending_owner : ByStr20 = zil_address

field paused : Bool = True

field reward_pairs : Map ByStr20 (List RewardParam) =
  Emp (ByStr20) (List RewardParam)

field stakes : Map ByStr20 Stak";
"e = Emp (ByStr20) (Stake)

field rewards : Map ByStr20 (Map ByStr20 Uint128) =
  Emp (ByStr20) (Map ByStr20 Uint128)

field administrators : Map ByStr20 Bool = Emp (ByStr20) (Bool)

field treasury_balances : Map ByStr20 Uint128 = Emp (ByStr20) (Uint128)

field treasury_fees_address : ByStr20 = initial_owner

field penalty_fee_balances : Uint128 = zero

field total_staked_amount : Uint128 = zero

procedure Throw (err : Error)
  e = make_error err;
  throw e
end

procedure EnsureContractIsNotPause";
"d ()
  paused_tmp <- paused;
  match paused_tmp with
  | False =>
  | True =>
    err = ContractFrozenFailurePaused;
    Throw err
  end
end

procedure EnsureContractIsPaused ()
  paused_tmp <- paused;
  match paused_tmp with
  | False =>
    err = ContractFrozenFailureNotPaused;
    Throw err
  | True =>
  end
end

procedure EnsureSenderIsOwner (initiator : ByStr20)
  current_owner <- owner;
  is_owner = builtin eq initiator current_owner;
  match is_owner with
  | True =>
  | False =>
    err ";
"= CodeNotOwner;
    Throw err
  end
end

procedure EnsureSenderIsAdminOrOwner (address : ByStr20)
  admins <- administrators;
  current_owner <- owner;
  check_allowed = is_admin_or_owner admins current_owner address;
  match check_allowed with
  | True =>
  | False =>
    err = Unauthorized;
    Throw err
  end
end

procedure EnsureNotStakeToken (address : ByStr20)
  stake_token_addr <- staking_token_address;
  is_same = builtin eq address stake_token_addr;
  match is_same with
  | True =>
    ";
"err = NotAllowedToWithdrawStakeTokens;
    Throw err
  | False =>
  end
end

procedure RequireValidBPS (val_bps : Uint128)
  is_gte_min = uint128_ge val_bps min_bps;
  is_lte_max = uint128_le val_bps max_bps;
  is_valid = andb is_gte_min is_lte_max;
  match is_valid with
  | True =>
  | False =>
    error = InvalidBPSError;
    Throw error
  end
end

procedure Send (coins : Coins, to_address : ByStr20)
  match coins with
  | Coins denom amount =>
    match denom with
    | Zil =>
      msg = { _";
"tag : ""AddFunds""; _recipient : to_address; _amount : amount };
      msgs = one_msg msg;
      send msgs
    | Token token =>
      msg_to_token =
        {
          _tag : ""Transfer"";
          _recipient : token;
          _amount : zero;
          to : to_address;
          amount : amount
        };
      msgs = one_msg msg_to_token;
      send msgs
    end
  end
end

procedure Receive (coins : Coins, initiator : ByStr20)
  EnsureContractIsNotPaused;
  match coins with
  | Coins denom amoun";
"t =>
    match denom with
    | Zil =>
      needs_refund = uint128_gt _amount amount;
      accept;
      match needs_refund with
      | True =>
        refund =
          let refund_amount = builtin sub _amount amount in
          Coins zil refund_amount;
        Send refund initiator
      | False =>
      end
    | Token token =>
      msg_to_token =
        {
          _tag : ""TransferFrom"";
          _recipient : token;
          _amount : zero;
          from : initiator;
          to : ";
"_this_address;
          amount : amount
        };
      msgs = one_msg msg_to_token;
      send msgs
    end
  end
end

procedure UpdateTreasuryFeeAmount (reward_token : ByStr20, amount : Uint128)
  is_amount_eq_zero = builtin eq amount zero;
  match is_amount_eq_zero with
  | False =>
    maybe_treasury_fee_amount <- treasury_balances[reward_token];
    match maybe_treasury_fee_amount with
    | Some curr_amount =>
      new_amount = builtin add curr_amount amount;
      treasury_balances[rew";
"ard_token] := new_amount;
      e =
        {
          _eventname : ""UpdateTreasuryFeeAmountWithPreviousValueSuccess"";
          sender : _origin;
          reward_token : reward_token;
          old_amount : curr_amount;
          new_amount : new_amount;
          difference : amount
        };
      event e
    | None =>
      treasury_balances[reward_token] := amount;
      e =
        {
          _eventname : ""UpdateRewardsAmountFirstClaimSuccess"";
          sender : _origin;
          rew";
"ard_token : reward_token;
          new_amount : amount
        };
      event e
    end
  | True =>
  end
end

procedure UpdateRewardsAmount (reward_token : ByStr20, amount : Uint128)
  is_amount_eq_zero = builtin eq amount zero;
  match is_amount_eq_zero with
  | False =>
    maybe_rewards_amount <- rewards[reward_token][_origin];
    match maybe_rewards_amount with
    | Some curr_amount =>
      new_amount = builtin add curr_amount amount;
      rewards[reward_token][_origin] := new_amount;
";
"      e =
        {
          _eventname : ""UpdateRewardsAmountWithPreviousValueSuccess"";
          sender : _origin;
          reward_token : reward_token;
          old_amount : curr_amount;
          new_amount : new_amount;
          difference : amount
        };
      event e
    | None =>
      rewards[reward_token][_origin] := amount;
      e =
        {
          _eventname : ""UpdateRewardsAmountFirstClaimSuccess"";
          sender : _origin;
          reward_token : reward_token;
     ";
"     new_amount : amount
        };
      event e
    end
  | True =>
  end
end

procedure UpdateRewards (reward_token : ByStr20, reward_res : RewardResult)
  match reward_res with
  | RewardResult total_rewards treasury_fee_amt =>
    UpdateRewardsAmount reward_token total_rewards;
    UpdateTreasuryFeeAmount reward_token treasury_fee_amt
  end
end

procedure DoClaimRewards (reward_pair : Pair ByStr20 (List RewardParam))
  maybe_stake <- stakes[_origin];
  current_block <-& BLOCKNUMBER;
  prev_";
"block = get_prev_bnum current_block;
  ts <-& TIMESTAMP(prev_block);
  zero_64 = Uint64 0;
  current_timestamp = option_timestamp zero_64 ts;
  match maybe_stake with
  | Some stake =>
    match stake with
    | Stake staked_amount staked_timestamp end_block penalty_fee =>
      reward_token_address =
        let fst_reward_token_address = @fst (ByStr20) (List RewardParam) in
        fst_reward_token_address reward_pair;
      reward_param_list =
        let snd_reward_param_list = @snd (ByStr20";
") (List RewardParam) in
        snd_reward_param_list reward_pair;
      calculate_rewards_fun = @calculate_rewards (List RewardParam);
      maybe_running_interest_amount <- rewards[reward_token_address][_origin];
      match maybe_running_interest_amount with
      | Some running_interest_amount =>
        total_amount = builtin add staked_amount running_interest_amount;
        reward_res =
          calculate_rewards_fun
            reward_param_list total_amount staked_timestamp current_tim";
"estamp seconds_per_year fee_denom;
        UpdateRewards reward_token_address reward_res
      | None =>
        reward_res =
          calculate_rewards_fun
            reward_param_list staked_amount staked_timestamp current_timestamp seconds_per_year fee_denom;
        UpdateRewards reward_token_address reward_res
      end
    end
  | None =>
    err = NoStakeFoundBySender;
    Throw err
  end
end

procedure DoRemoveRewardToken (reward_token_address : ByStr20)
  current_block <-& BLOCKNUMBER";
";
  prev_block = get_prev_bnum current_block;
  ts <-& TIMESTAMP(prev_block);
  zero_64 = Uint64 0;
  current_timestamp = option_timestamp zero_64 ts;
  maybe_reward_params_list <- reward_pairs[reward_token_address];
  match maybe_reward_params_list with
  | Some reward_params_list =>
    update_all_reward_params_fun = @update_all_reward_params (List RewardParam);
    updated_reward_params_list =
      update_all_reward_params_fun reward_params_list current_timestamp;
    reward_pairs[reward_tok";
"en_address] := updated_reward_params_list
  | None =>
    err = RewardTokenNotFound;
    Throw err
  end
end

procedure DoRemoveAllRewardTokens
  (reward_pair : Pair ByStr20 (List RewardParam))
  reward_token_address =
    let fst_reward_token_address = @fst (ByStr20) (List RewardParam) in
    fst_reward_token_address reward_pair;
  DoRemoveRewardToken reward_token_address
end

procedure DoWithdrawRewards (reward_pair : Pair ByStr20 (List RewardParam))
  reward_token_address =
    let fst_reward";
"_token_address = @fst (ByStr20) (List RewardParam) in
    fst_reward_token_address reward_pair;
  maybe_reward_token_amt <- rewards[reward_token_address][_origin];
  match maybe_reward_token_amt with
  | Some reward_token_amt =>
    is_zil = builtin eq reward_token_address zil_address;
    match is_zil with
    | True =>
      stake_token_addr <- staking_token_address;
      is_staked_token_same_as_withdraw =
        builtin eq reward_token_address stake_token_addr;
      match is_staked_token_s";
"ame_as_withdraw with
      | True =>
        balances <- _balance;
        total_staked <- total_staked_amount;
        available_bal_to_withdraw = builtin sub balances total_staked;
        is_valid_withdrawal_amount =
          uint128_le reward_token_amt available_bal_to_withdraw;
        match is_valid_withdrawal_amount with
        | True =>
          zils_out = Coins zil reward_token_amt;
          Send zils_out _origin
        | False =>
          err = CodeInsufficientFunds;
          Th";
"row err
        end
      | False =>
        zils_out = Coins zil reward_token_amt;
        Send zils_out _origin
      end
    | False =>
      stake_token_addr <- staking_token_address;
      is_staked_token_same_as_withdraw =
        builtin eq reward_token_address stake_token_addr;
      match is_staked_token_same_as_withdraw with
      | True =>
        balances <-& initial_staking_token_address.balances[_this_address];
        contract_balance = get_value balances;
        total_staked <- ";
"total_staked_amount;
        available_bal_to_withdraw = builtin sub contract_balance total_staked;
        is_valid_withdrawal_amount =
          uint128_le reward_token_amt available_bal_to_withdraw;
        match is_valid_withdrawal_amount with
        | True =>
          reward_token = Token reward_token_address;
          tokens_out = Coins reward_token reward_token_amt;
          Send tokens_out _origin
        | False =>
          err = CodeInsufficientFunds;
          Throw err
        e";
"nd
      | False =>
        reward_token = Token reward_token_address;
        tokens_out = Coins reward_token reward_token_amt;
        Send tokens_out _origin
      end
    end;
    delete rewards[reward_token_address][_origin];
    e =
      {
        _eventname : ""WithdrawRewardsSuccess"";
        sender : _origin;
        reward_token : reward_token_address;
        amount : reward_token_amt
      };
    event e
  | None =>
    e =
      {
        _eventname : ""WithdrawRewardsSuccess"";
     ";
"   sender : _origin;
        reward_token : reward_token_address;
        amount : zero
      };
    event e
  end
end

transition AddStake
  (amount : Uint128, expiration_time : Uint64, penalty_fee_bps : Uint128)
  current_block <-& BLOCKNUMBER;
  prev_block = get_prev_bnum current_block;
  ts <-& TIMESTAMP(prev_block);
  zero_64 = Uint64 0;
  current_timestamp = option_timestamp zero_64 ts;
  maybe_stake <- stakes[_origin];
  RequireValidBPS penalty_fee_bps;
  token_address <- staking_token_ad";
"dress;
  token = Token token_address;
  tokens_in = Coins token amount;
  Receive tokens_in _origin;
  match maybe_stake with
  | Some stake =>
    match stake with
    | Stake staked_amount timestamp end_timestamp penalty_fee =>
      curent_reward_pairs <- reward_pairs;
      rewards_list = builtin to_list curent_reward_pairs;
      forall rewards_list DoClaimRewards;
      total_amount = builtin add staked_amount amount;
      updated_stake =
        Stake total_amount current_timestamp end_t";
"imestamp penalty_fee;
      stakes[_origin] := updated_stake;
      total_staked <- total_staked_amount;
      new_total_staked = builtin add total_staked amount;
      total_staked_amount := new_total_staked
    end
  | None =>
    stake = Stake amount current_timestamp expiration_time penalty_fee_bps;
    stakes[_origin] := stake;
    total_staked <- total_staked_amount;
    new_total_staked = builtin add total_staked amount;
    total_staked_amount := new_total_staked
  end
end

transition Re";
"moveStake (amount : Uint128)
  current_block <-& BLOCKNUMBER;
  prev_block = get_prev_bnum current_block;
  ts <-& TIMESTAMP(prev_block);
  zero_64 = Uint64 0;
  current_timestamp = option_timestamp zero_64 ts;
  maybe_stake <- stakes[_origin];
  match maybe_stake with
  | Some (Stake staked_amount staked_timestamp end_timestamp penalty_fee) =>
    is_amount_less_than_staked_amount = builtin lt amount staked_amount;
    is_amount_equal_to_staked_amount = builtin eq amount staked_amount;
    is_a";
"mount_less_or_equal_to_staked_amount =
      orb is_amount_less_than_staked_amount is_amount_equal_to_staked_amount;
    match is_amount_less_or_equal_to_staked_amount with
    | True =>
      curent_reward_pairs <- reward_pairs;
      rewards_list = builtin to_list curent_reward_pairs;
      forall rewards_list DoClaimRewards;
      is_lt_curr_timestamp = uint64_lt current_timestamp end_timestamp;
      match is_lt_curr_timestamp with
      | True =>
        fee_bps = portion amount penalty_fee";
";
        new_amount = builtin sub amount fee_bps;
        penalty_fee_amount <- penalty_fee_balances;
        new_penalty_fee_amount = builtin add penalty_fee_amount fee_bps;
        penalty_fee_balances := new_penalty_fee_amount;
        token_address <- staking_token_address;
        staked_token = Token token_address;
        output = Coins staked_token new_amount;
        Send output _origin
      | False =>
        token_address <- staking_token_address;
        staked_token = Token token_";
"address;
        output = Coins staked_token amount;
        Send output _origin
      end;
      remaining_amount = builtin sub staked_amount amount;
      is_remaining_amount_eq_zero = builtin eq remaining_amount zero;
      match is_remaining_amount_eq_zero with
      | True => delete stakes[_origin]
      | False =>
        updated_stake =
          Stake remaining_amount current_timestamp end_timestamp penalty_fee;
        stakes[_origin] := updated_stake
      end;
      total_staked <- to";
"tal_staked_amount;
      new_total_staked = builtin sub total_staked amount;
      total_staked_amount := new_total_staked
    | False =>
      err = AmountGreaterThanStakedAmount;
      Throw err
    end
  | None =>
    err = NoStakeFoundBySender;
    Throw err
  end
end

transition ClaimRewards ()
  current_block <-& BLOCKNUMBER;
  prev_block = get_prev_bnum current_block;
  ts <-& TIMESTAMP(prev_block);
  zero_64 = Uint64 0;
  current_timestamp = option_timestamp zero_64 ts;
  maybe_stake <- ";
"stakes[_origin];
  match maybe_stake with
  | Some (Stake staked_amount staked_timestamp end_timestamp penalty_fee) =>
    curent_reward_pairs <- reward_pairs;
    rewards_list = builtin to_list curent_reward_pairs;
    forall rewards_list DoClaimRewards;
    forall rewards_list DoWithdrawRewards;
    updated_stake =
      Stake staked_amount current_timestamp end_timestamp penalty_fee;
    stakes[_origin] := updated_stake
  | None =>
    curent_reward_pairs <- reward_pairs;
    rewards_list = b";
"uiltin to_list curent_reward_pairs;
    forall rewards_list DoWithdrawRewards
  end
end

transition AddRewardToken
  (reward_token_address : ByStr20, apr : Uint128, treasury_fee : Uint128)
  EnsureSenderIsAdminOrOwner _sender;
  current_block <-& BLOCKNUMBER;
  prev_block = get_prev_bnum current_block;
  ts <-& TIMESTAMP(prev_block);
  zero_64 = Uint64 0;
  current_timestamp = option_timestamp zero_64 ts;
  end_timestamp = Uint64 0;
  reward_param = RewardParam apr treasury_fee current_timestamp";
" end_timestamp;
  maybe_reward_params_list <- reward_pairs[reward_token_address];
  match maybe_reward_params_list with
  | Some reward_params_list =>
    update_all_reward_params_fun = @update_all_reward_params (List RewardParam);
    updated_reward_params_list =
      update_all_reward_params_fun reward_params_list current_timestamp;
    reward_params_list_new =
      Cons {(RewardParam)} reward_param updated_reward_params_list;
    reward_pairs[reward_token_address] := reward_params_list_new
";
"  | None =>
    reward_params_list = Nil {(RewardParam)};
    reward_params_list_new =
      Cons {(RewardParam)} reward_param reward_params_list;
    reward_pairs[reward_token_address] := reward_params_list_new
  end
end

transition RemoveRewardToken (reward_token_address : ByStr20)
  EnsureSenderIsAdminOrOwner _sender;
  DoRemoveRewardToken reward_token_address
end

transition RemoveAllRewardTokens ()
  EnsureSenderIsAdminOrOwner _sender;
  curent_reward_pairs <- reward_pairs;
  rewards_list =";
" builtin to_list curent_reward_pairs;
  forall rewards_list DoRemoveAllRewardTokens
end

transition Pause ()
  EnsureSenderIsAdminOrOwner _sender;
  paused := bool_active
end

transition UnPause ()
  EnsureSenderIsAdminOrOwner _sender;
  paused := bool_inactive
end

transition AddAdmin (address : ByStr20)
  EnsureSenderIsOwner _sender;
  administrators[address] := true;
  e = { _eventname : ""AddAdminSuccess""; addressAdded : address };
  event e
end

transition RemoveAdmin (address : ByStr20)
  E";
"nsureSenderIsOwner _sender;
  delete administrators[address];
  e = { _eventname : ""RemoveAdminSuccess""; address : address };
  event e
end

transition TransferOwnership (new_owner : ByStr20)
  EnsureSenderIsOwner _sender;
  existing_owner <- owner;
  new_owner_is_existing_owner = builtin eq new_owner existing_owner;
  match new_owner_is_existing_owner with
  | True =>
    e = { _exception : ""ExistingOwner"" };
    throw e
  | False => pending_owner := new_owner
  end
end

transition AcceptPendin";
"gOwnership ()
  new_owner <- pending_owner;
  sender_is_pending_owner = builtin eq _sender new_owner;
  match sender_is_pending_owner with
  | False =>
    e = { _exception : ""InvalidSender"" };
    throw e
  | True =>
    owner := new_owner;
    pending_owner := zil_address;
    e = { _eventname : ""OwnershipTransferred""; owner : new_owner };
    event e
  end
end

transition WithdrawTokens (token_address : ByStr20, token_amount : Uint128)
  EnsureSenderIsOwner _sender;
  stake_token_addr <- stak";
"ing_token_address;
  is_staked_token_same_as_withdraw = builtin eq token_address stake_token_addr;
  match is_staked_token_same_as_withdraw with
  | True =>
    balances <-& initial_staking_token_address.balances[_this_address];
    contract_balance = get_value balances;
    total_staked <- total_staked_amount;
    available_bal_to_withdraw = builtin sub contract_balance total_staked;
    is_valid_withdrawal_amount =
      uint128_le token_amount available_bal_to_withdraw;
    match is_valid_wit";
"hdrawal_amount with
    | True =>
      reward_token = Token token_address;
      tokens_out = Coins reward_token token_amount;
      Send tokens_out _sender
    | False =>
      err = CodeInsufficientFunds;
      Throw err
    end
  | False =>
    reward_token = Token token_address;
    tokens_out = Coins reward_token token_amount;
    Send tokens_out _sender
  end
end

transition WithdrawZils (zil_amount : Uint128)
  EnsureSenderIsAdminOrOwner _sender;
  zils_out = Coins zil zil_amount;
  Send";
" zils_out _sender
end

transition Deposit (token_address : ByStr20, token_amount : Uint128)
  EnsureSenderIsAdminOrOwner _sender;
  token = Token token_address;
  tokens_in = Coins token token_amount;
  Receive tokens_in _sender
end

transition TransferFromSuccessCallBack
  (initiator : ByStr20, sender : ByStr20, recipient : ByStr20, amount : Uint128)

end

transition TransferSuccessCallBack
  (sender : ByStr20, recipient : ByStr20, amount : Uint128)

end

transition RecipientAcceptTransferFrom
";
"  (initiator : ByStr20, sender : ByStr20, recipient : ByStr20, amount : Uint128)
  is_valid_transfer_to_self =
    let self_triggered = builtin eq initiator _this_address in
    let is_transfer_to_self = builtin eq recipient _this_address in
    andb self_triggered is_transfer_to_self;
  match is_valid_transfer_to_self with
  | False =>
    e = { _exception : ""InvalidInvocation"" };
    throw e
  | True =>
  end
end

transition AddFunds ()
  accept
end

transition RecipientAcceptTransfer
  (sende";
"r : ByStr20, recipient : ByStr20, amount : Uint128)

end

"]%string.

Local Definition src_Timestamp : list string := ["scilla_version 0

(***************************************************)
(*             The contract definition             *)
(***************************************************)
contract Timestamp ()


transition EventTimestamp (bnum: BNum)
ts <-& TIMESTAMP(bnum);
e = { _eventname : ""TS""; timestamp : ts };
event e
end"]%string.

Local Definition src_ZRC1 : list string := ["scilla_version 0

(***************************************************)
(*               Associated library                *)
(***************************************************)
import BoolUtils PairUtils ListUtils
library NonfungibleToken

(* User-defined ADTs *)
type Dummy =
| Dummy

type Operation =
| Add
| Sub

(* Global variables *)
let zero = Uint256 0
let one = Uint256 1
let verdad = Dummy
let add_operation = Add
let sub_operation = Sub

(* Library functions *)
let one_msg = 
  fun (msg";
" : Message) => 
    let nil_msg = Nil {Message} in
    Cons {Message} msg nil_msg

let two_msgs =
  fun (msg1 : Message) =>
  fun (msg2 : Message) =>
    let msgs_tmp = one_msg msg2 in
    Cons {Message} msg1 msgs_tmp

let get_bal =
  fun (some_bal: Option Uint256) =>
    match some_bal with
    | Some bal => bal
    | None => zero
    end

let build_pair =
  fun (input_to_address : ByStr20) =>
  fun (input_token_uri : String) =>
    Pair {ByStr20 String} input_to_address input_token_uri

(* Err";
"or exception *)
type Error =
  | CodeNotContractOwner
  | CodeIsSelf
  | CodeTokenExists
  | CodeIsNotMinter
  | CodeNotApproved
  | CodeNotTokenOwner
  | CodeNotFound
  | CodeNotApprovedForAll
  | CodeNotOwnerOrOperator
  | CodeNotApprovedSpenderOrOperator

let make_error =
  fun (result : Error) =>
    let result_code = 
      match result with
      | CodeNotContractOwner             => Int32 -1
      | CodeIsSelf                       => Int32 -2
      | CodeTokenExists                  => I";
"nt32 -3
      | CodeIsNotMinter                  => Int32 -4
      | CodeNotApproved                  => Int32 -5
      | CodeNotTokenOwner                => Int32 -6
      | CodeNotFound                     => Int32 -7
      | CodeNotApprovedForAll            => Int32 -8
      | CodeNotOwnerOrOperator           => Int32 -9
      | CodeNotApprovedSpenderOrOperator => Int32 -10
      end
    in
    { _exception : ""Error""; code : result_code }

(***************************************************)";
"
(*             The contract definition             *)
(***************************************************)

contract NonfungibleToken
(
  contract_owner: ByStr20,
  name : String,
  symbol: String
)

(* Mutable fields *)

(* Mapping of minters available *)
field minters: Map ByStr20 Dummy =
    let emp_map = Emp ByStr20 Dummy in
    builtin put emp_map contract_owner verdad

(* Mapping between token_id to token_owner *)
field token_owners: Map Uint256 ByStr20 = Emp Uint256 ByStr20

(* Mapping ";
"from owner to number of owned tokens *)
field owned_token_count: Map ByStr20 Uint256 = Emp ByStr20 Uint256

(* Mapping between token_id to approved address                              *)
(* @dev: There can only be one approved address per token at any given time. *)
field token_approvals: Map Uint256 ByStr20 = Emp Uint256 ByStr20

(* Mapping of token_owner to operator  *)
field operator_approvals: Map ByStr20 (Map ByStr20 Dummy)
                            = Emp ByStr20 (Map ByStr20 Dummy)

(* ";
"Mapping from token_id to token_uri *)
field token_uris: Map Uint256 String = Emp Uint256 String

(* Total token count *)
field total_supply: Uint256 = Uint256 0

(* Used token id *)
field token_id_count: Uint256 = Uint256 0


(* Emit Errors *)
procedure ThrowError(err : Error)
  e = make_error err;
  throw e
end

procedure IsContractOwner()
  is_contract_owner = builtin eq contract_owner _sender;
  match is_contract_owner with
  | True => 
  | False =>
    err = CodeNotContractOwner;
    ThrowEr";
"ror err
  end
end

procedure IsSelf(address_a: ByStr20, address_b: ByStr20)
  is_self = builtin eq address_a address_b;
  match is_self with
  | False =>
  | True =>
    err = CodeIsSelf;
    ThrowError err
  end
end

procedure IsTokenExists(token_id: Uint256)
  token_exist <- exists token_owners[token_id];
  match token_exist with
  | False =>
  | True =>
    err = CodeTokenExists;
    ThrowError err
  end
end

procedure IsMinter(address: ByStr20)
  is_minter <- exists minters[address];
  match";
" is_minter with
  | True =>
  | False =>
    err = CodeIsNotMinter;
    ThrowError err
  end
end

procedure IsTokenOwner(token_id: Uint256, address: ByStr20)
  some_token_owner <- token_owners[token_id];
  match some_token_owner with
  | Some addr => 
    is_token_owner = builtin eq addr address;
    match is_token_owner with
    | True =>
    | False =>
      err = CodeNotTokenOwner;
      ThrowError err
    end
  | None =>
    err = CodeNotFound;
    ThrowError err
  end
end

procedure IsAppro";
"vedForAll(token_owner: ByStr20, operator: ByStr20)
  is_operator_approved <- exists operator_approvals[token_owner][operator];
  match is_operator_approved with
  | True =>
  | False =>
    err = CodeNotApprovedForAll;
    ThrowError err
  end
end

procedure IsOwnerOrOperator(token_owner: ByStr20)
  is_owner = builtin eq _sender token_owner;
  is_approved_for_all <- exists operator_approvals[token_owner][_sender];
  is_authorised = orb is_owner is_approved_for_all;
  match is_authorised with
  |";
" True =>
  | False =>
    err = CodeNotOwnerOrOperator;
    ThrowError err
  end
end

procedure IsApprovedSpenderOrOperator(token_id: Uint256, token_owner: ByStr20)
  some_token_approval <- token_approvals[token_id];
  is_approved = match some_token_approval with
    | None => False
    | Some approved_address => 
      builtin eq _sender approved_address
    end;
  is_operator <- exists operator_approvals[token_owner][_sender];
  is_authorised = orb is_approved is_operator;
  match is_authorise";
"d with
  | True =>
  | False =>
    err = CodeNotApprovedSpenderOrOperator;
    ThrowError err
  end
end

procedure UpdateTokenCount(operation: Operation, address: ByStr20)
  match operation with
  | Add =>
    some_to_count <- owned_token_count[address];
    new_to_count = 
      let current_count = get_bal some_to_count in
      builtin add current_count one;
    owned_token_count[address] := new_to_count
  | Sub =>
    some_from_count <- owned_token_count[address];
    new_from_count = 
     ";
" let current_count = get_bal some_from_count in
        let is_zero = builtin eq current_count zero in
          match is_zero with
          | True => zero
          | False => builtin sub current_count one
          end;
    owned_token_count[address] := new_from_count
  end
end

(* Getter transitions *)

(* @dev: Get number of NFTs assigned to a token_owner *)
transition BalanceOf(address: ByStr20)
  some_bal <- owned_token_count[address];
  balance = get_bal some_bal;
  msg_to_sender = { _ta";
"g : ""BalanceOfCallBack""; _recipient : _sender; _amount : Uint128 0;
                   balance : balance};
  msgs = one_msg msg_to_sender;
  send msgs
end

(* @dev: Get total supply of NFTs minted *)
transition TotalSupply()
  current_supply <- total_supply;
  msg_to_sender = { _tag : ""TotalSupplyCallBack""; _recipient : _sender; _amount : Uint128 0;
                   total_supply : current_supply};
  msgs = one_msg msg_to_sender;
  send msgs
end

(* @dev: Get name of the NFTs *)
transition Name";
"()
  msg_to_sender = { _tag : ""NameCallBack""; _recipient : _sender; _amount : Uint128 0;
                   name : name};
  msgs = one_msg msg_to_sender;
  send msgs
end

(* @dev: Get name of the NFTs *)
transition Symbol()
  msg_to_sender = { _tag : ""SymbolCallBack""; _recipient : _sender; _amount : Uint128 0;
                   symbol : symbol};
  msgs = one_msg msg_to_sender;
  send msgs
end

(* @dev: Get approved_addr for token_id *)
transition GetApproved(token_id: Uint256)
  some_token_appr";
"oval <- token_approvals[token_id];
  match some_token_approval with
  | Some addr => 
    msg_to_sender = { _tag : ""GetApprovedCallBack""; _recipient : _sender; _amount : Uint128 0; 
                      approved_addr : addr; token_id : token_id};
    msgs = one_msg msg_to_sender;
    send msgs
  | None => 
    err = CodeNotApproved;
    ThrowError err
  end
end

(* @dev: Get the token_uri of a certain token_id *)
transition GetTokenURI(token_id: Uint256)
  some_token_uri <- token_uris[token_id]";
";
  match some_token_uri with
  | Some token_uri =>
    msg_to_sender = { _tag : ""GetTokenURICallBack""; _recipient : _sender; _amount : Uint128 0; 
                      token_uri : token_uri};
    msgs = one_msg msg_to_sender;
    send msgs
  | None =>
    err = CodeNotFound;
    ThrowError err
  end
end

(* @dev: Check if a token_id is owned by a token_owner *)
transition CheckTokenOwner(token_id: Uint256, address: ByStr20)
  IsTokenOwner token_id address;
  msg_to_sender = { _tag : ""IsTokenOw";
"nerCallBack""; _recipient : _sender; _amount : Uint128 0};
  msgs = one_msg msg_to_sender;
  send msgs
end

(* @dev: Check if address is operator for token_owner *)
transition CheckApprovedForAll(token_owner: ByStr20, operator: ByStr20)
  IsApprovedForAll token_owner operator;
  msg_to_sender = { _tag : ""IsApprovedForAllCallBack""; _recipient : _sender; _amount : Uint128 0;
                    token_owner : token_owner; operator : operator};
  msgs = one_msg msg_to_sender;
  send msgs
end

(* Inte";
"rface transitions *)

(* @dev:    Add or remove approved minters. Only contract_owner can approve minters. *)
(* @param:  minter      - Address of the minter to be approved or removed            *)
transition ConfigureMinter(minter: ByStr20)
  IsContractOwner;
  some_minter <- minters[minter];
  match some_minter with
  | Some Dummy => 
    (* Remove minter *)
    delete minters[minter];
    e = {_eventname: ""RemovedMinterSuccess""; minter: minter};
    event e
  | None =>
    (* Add minter *)
  ";
"  minters[minter] := verdad;
    e = {_eventname: ""AddMinterSuccess""; minter: minter};
    event e
  end
end

procedure Minting(input_pair: Pair ByStr20 String)
  to = let fst_string_bystr20 = @fst ByStr20 String in
    fst_string_bystr20 input_pair;
  token_uri = let snd_string_bystr20 = @snd ByStr20 String in
    snd_string_bystr20 input_pair;
  IsMinter _sender;
  (* Add to owner count *)
  UpdateTokenCount add_operation to;
  (* Add to total_supply *)
  current_supply <- total_supply;
  new_";
"supply = builtin add current_supply one;
  total_supply := new_supply;
  (* Initiate token_id and check if exists *)
  current_token_id_count <- token_id_count;
  new_token_id_count = builtin add current_token_id_count one;
  token_id_count := new_token_id_count;
  token_id = new_token_id_count;
  IsTokenExists token_id;
  (* Mint new non-fungible token *)
  token_owners[token_id] := to;
  (* Add token_uri for token_id *)
  token_uris[token_id] := token_uri;
  e = {_eventname: ""MintSuccess""; by:";
" _sender; recipient: to;
        token_id: token_id; token_uri: token_uri};
  event e
end

(* @dev:    Mint new tokens. Only minters can mint.           *)
(* @param:  to        - Address of the token recipient        *)
(* @param:  token_uri - URI of the the new token to be minted *)
transition Mint(to: ByStr20, token_uri: String)
  input_pair = build_pair to token_uri;
  Minting input_pair;
  token_id <- token_id_count;
  msg_to_recipient = { _tag : ""RecipientAcceptMint""; _recipient : to; _amo";
"unt : Uint128 0 };
  msg_to_sender = { _tag : ""MintCallBack""; _recipient : _sender; _amount : Uint128 0;
                    recipient : _sender; token_id : token_id; token_uri : token_uri };
  msgs = two_msgs msg_to_recipient msg_to_sender;
  send msgs
end

(* @dev:    Mint multiple new tokens at once. Only minters can mint. *)
(* @param:  to_list         - Addressses of the token recipient      *)
(* @param:  token_uris_list - URIs of the the new token to be minted *)
transition BatchMint(to_l";
"ist: List ByStr20, token_uris_list: List String)
  pair_two_list = @list_zip ByStr20 String;
  input_list = pair_two_list to_list token_uris_list;
  forall input_list Minting;
  msg_to_sender = { _tag : ""BatchMintCallback""; _recipient : _sender; _amount : Uint128 0 };
  msgs = one_msg msg_to_sender;
  send msgs
end


(* @dev:    Burn existing tokens. Only token_owner or an operator can burn a NFT. *)
(* @param:  token_id - Unique ID of the NFT to be destroyed                       *)
transition ";
"Burn(token_id: Uint256)
  (* Check if token exists *)
  some_token_owner <- token_owners[token_id];
  match some_token_owner with
  | None =>
    err = CodeNotFound;
    ThrowError err
  | Some token_owner =>
    IsOwnerOrOperator token_owner;
    (* Destroy existing token *)
    delete token_owners[token_id];
    delete token_approvals[token_id];
    delete token_uris[token_id];
    (* Deduct from owned_token_count *)
    UpdateTokenCount sub_operation token_owner;
    (* Deduct from total_supp";
"ly *)
    current_supply <- total_supply;
    new_supply = builtin sub current_supply one;
    total_supply := new_supply;
    e = {_eventname: ""BurnSuccess""; initiator: _sender; burn_address: token_owner; token_id: token_id};
    event e;
    msg_to_sender = { _tag : ""BurnCallBack""; _recipient : _sender; _amount : Uint128 0;
                      initiator : _sender; burn_address : token_owner; token_id : token_id };
    msgs = one_msg msg_to_sender;
    send msgs
  end
end


(* @dev: Approves ";
"OR remove an address ability to transfer a given token_id *)
(* There can only be one approved_spender per token at any given time       *)
(* param: to       - Address to be approved for the given token_id          *)
(* param: token_id - Unique ID of the NFT to be approved                    *)
transition SetApprove(to: ByStr20, token_id: Uint256)
  some_token_owner <- token_owners[token_id];
  match some_token_owner with
  | None =>
    err = CodeNotFound;
    ThrowError err
  | Some token_ow";
"ner =>
    IsOwnerOrOperator token_owner;
    is_approved <- token_approvals[token_id];
    match is_approved with
    | Some approved_spender =>
      (* Remove approved_spender *)
      is_approved_spender = builtin eq to approved_spender;
      match is_approved_spender with
      | True =>
        delete token_approvals[token_id];
        e = {_eventname: ""RemoveApprovalSuccess""; initiator: _sender; removed_spender: to; token_id: token_id};
        event e;
        msg_to_sender = { _tag : """;
"RemoveApprovalSuccessCallBack""; _recipient : _sender; _amount : Uint128 0; 
                          removed_spender : to; token_id : token_id };
        msgs = one_msg msg_to_sender;
        send msgs
      | False =>
        err = CodeNotApproved;
        ThrowError err
      end
    | None =>
      (* Add approved_spender *)
      token_approvals[token_id] := to;
      e = {_eventname: ""AddApprovalSuccess""; initiator: _sender; approved_spender: to; token_id: token_id};
      event e;
      m";
"sg_to_sender = { _tag : ""AddApprovalSuccessCallBack""; _recipient : _sender; _amount : Uint128 0; 
                        approved_spender : to; token_id : token_id };
      msgs = one_msg msg_to_sender;
      send msgs
    end
  end
end

(* @dev: Sets or unsets an operator for the _sender       *)
(* @param: to - Address to be set or unset as an operator *)
transition SetApprovalForAll(to: ByStr20)
  IsSelf to _sender;
  is_operator <- exists operator_approvals[_sender][to];
  match is_operator";
" with
  | False =>
    (* Add operator *)
    operator_approvals[_sender][to] := verdad;
    e = {_eventname: ""AddApprovalForAllSuccess""; initiator: _sender; operator: to};
    event e
  | True =>
    (* Remove operator *)
    delete operator_approvals[_sender][to];
    e = {_eventname: ""RemoveApprovalForAllSuccess""; initiator: _sender; operator: to};
    event e
  end;
  new_status = negb is_operator;
  msg_to_sender = { _tag : ""SetApprovalForAllSuccessCallBack""; _recipient : _sender; _amount :";
" Uint128 0; 
                    operator : to; status : new_status};
  msgs = one_msg msg_to_sender;
  send msgs
end

(* @dev: Transfer the ownership of a given token_id to another address. token_owner only transition. *)
(* @param: to       - Recipient address for the token                                                *)
(* @param: token_id - Unique ID of the NFT to be transferred                                         *)
transition Transfer(to: ByStr20, token_id: Uint256)
  IsSelf to _send";
"er;
  IsTokenOwner token_id _sender;
  (* Change token_owner for that token_id *)
  token_owners[token_id] := to;
  (* Delete tokenApproval entry for that token_id *)
  delete token_approvals[token_id];
  (* Subtract one from previous token owner count *)
  UpdateTokenCount sub_operation _sender;
  (* Add one to the new token owner count *)
  UpdateTokenCount add_operation to;
  e = {_eventname: ""TransferSuccess""; from: _sender; recipient: to; token_id: token_id};
  event e;
  msg_to_recipient =";
" { _tag : ""RecipientAcceptTransfer""; _recipient : to; _amount : Uint128 0; 
                      from : _sender; recipient : to; token_id : token_id };
  msg_to_sender = { _tag : ""TransferSuccessCallBack""; _recipient : _sender; _amount : Uint128 0; 
                    from : _sender; recipient : to; token_id : token_id };
  msgs = two_msgs msg_to_recipient msg_to_sender;
  send msgs
end

(* @dev: Transfer the ownership of a given token_id to another address. approved_spender or operator only t";
"ransition. *)
(* @param: to       - Recipient address for the NFT                                                                   *)
(* @param: token_id - Unique ID of the NFT to be transferred                                                          *)
transition TransferFrom(to: ByStr20, token_id: Uint256)
  some_token_owner <- token_owners[token_id];
  match some_token_owner with
  | None =>
    err = CodeNotFound;
    ThrowError err
  | Some token_owner =>
    IsSelf to token_owner;
    Is";
"ApprovedSpenderOrOperator token_id token_owner;
    (* Change token_owner for that token_id *)
    token_owners[token_id] := to;
    (* Delete tokenApproval entry for that token_id *)
    delete token_approvals[token_id];
    (* Subtract one from previous token owner count *)
    UpdateTokenCount sub_operation token_owner;
    (* Add one to the new token owner count *)
    UpdateTokenCount add_operation to;
    e = {_eventname: ""TransferFromSuccess""; from: token_owner; recipient: to; token_id: t";
"oken_id};
    event e;
    msg_to_recipient = { _tag : ""RecipientAcceptTransferFrom""; _recipient : to; _amount : Uint128 0; 
                        from : token_owner; recipient : to; token_id : token_id };
    msg_to_sender = { _tag : ""TransferFromSuccessCallBack""; _recipient : _sender; _amount : Uint128 0; 
                      from : token_owner; recipient : to; token_id : token_id };
    msgs = two_msgs msg_to_recipient msg_to_sender;
    send msgs
  end
end
"]%string.

Local Definition src_ZRC2 : list string := ["scilla_version 0

(***************************************************)
(*               Associated library                *)
(***************************************************)
import IntUtils
library FungibleToken

let one_msg = 
  fun (msg : Message) => 
  let nil_msg = Nil {Message} in
  Cons {Message} msg nil_msg

let two_msgs =
fun (msg1 : Message) =>
fun (msg2 : Message) =>
  let msgs_tmp = one_msg msg2 in
  Cons {Message} msg1 msgs_tmp

(* Error events *)
type Error =
| CodeIsSender
| ";
"CodeInsufficientFunds
| CodeInsufficientAllowance
| CodeNotOwner

let make_error =
  fun (result : Error) =>
    let result_code = 
      match result with
      | CodeIsSender              => Int32 -1
      | CodeInsufficientFunds     => Int32 -2
      | CodeInsufficientAllowance => Int32 -3
      | CodeNotOwner              => Int32 -4
      end
    in
    { _exception : ""Error""; code : result_code }
  
let zero = Uint128 0

(* Dummy user-defined ADT *)
type Unit =
| Unit

let get_val =
  fun ";
"(some_val: Option Uint128) =>
  match some_val with
  | Some val => val
  | None => zero
  end

(***************************************************)
(*             The contract definition             *)
(***************************************************)

contract FungibleToken
(
  contract_owner: ByStr20,
  name : String,
  symbol: String,
  decimals: Uint32,
  init_supply : Uint128
)

(* Mutable fields *)

field total_supply : Uint128 = init_supply

field balances: Map ByStr20 Uint128 
  = ";
"let emp_map = Emp ByStr20 Uint128 in
    builtin put emp_map contract_owner init_supply

field allowances: Map ByStr20 (Map ByStr20 Uint128) 
  = Emp ByStr20 (Map ByStr20 Uint128)

(**************************************)
(*             Procedures             *)
(**************************************)

procedure ThrowError(err : Error)
  e = make_error err;
  throw e
end

procedure IsOwner(address: ByStr20)
  is_owner = builtin eq contract_owner address;
  match is_owner with
  | True =>
  | Fa";
"lse =>
    err = CodeNotOwner;
    ThrowError err
  end
end

procedure IsNotSender(address: ByStr20)
  is_sender = builtin eq _sender address;
  match is_sender with
  | True =>
    err = CodeIsSender;
    ThrowError err
  | False =>
  end
end

procedure AuthorizedMint(recipient: ByStr20, amount: Uint128) 
  o_recipient_bal <- balances[recipient];
  bal = get_val o_recipient_bal;
  new_balance = builtin add amount bal;
  balances[recipient] := new_balance;
  current_total_supply <- total_supply;";
"
  new_total_supply = builtin add current_total_supply amount;
  total_supply := new_total_supply;
  e = {_eventname: ""Minted""; minter: _sender; recipient: recipient; amount: amount};
  event e
end

procedure AuthorizedBurnIfSufficientBalance(from: ByStr20, amount: Uint128)
  o_get_bal <- balances[from];
  bal = get_val o_get_bal;
  can_burn = uint128_le amount bal;
  match can_burn with
  | True =>
    (* Subtract amount from from *)
    new_balance = builtin sub bal amount;
    balances[from] ";
":= new_balance;
    current_total_supply <- total_supply;
    new_total_supply = builtin sub current_total_supply amount;
    total_supply := new_total_supply;
    e = {_eventname: ""Burnt""; burner: _sender; burn_account: from; amount: amount};
    event e  
  | False =>
    err = CodeInsufficientFunds;
    ThrowError err
  end
end

procedure AuthorizedMoveIfSufficientBalance(from: ByStr20, to: ByStr20, amount: Uint128)
  o_from_bal <- balances[from];
  bal = get_val o_from_bal;
  can_do = uint12";
"8_le amount bal;
  match can_do with
  | True =>
    (* Subtract amount from from and add it to to address *)
    new_from_bal = builtin sub bal amount;
    balances[from] := new_from_bal;
    (* Adds amount to to address *)
    get_to_bal <- balances[to];
    new_to_bal = match get_to_bal with
    | Some bal => builtin add bal amount
    | None => amount
    end;
    balances[to] := new_to_bal
  | False =>
    (* Balance not sufficient *)
    err = CodeInsufficientFunds;
    ThrowError err
  en";
"d
end

(***************************************)
(*             Transitions             *)
(***************************************)

(* @dev: Mint new tokens. Only contract_owner can mint.                      *)
(* @param recipient: Address of the recipient whose balance is to increase.  *)
(* @param amount:    Number of tokens to be minted.                          *)
transition Mint(recipient: ByStr20, amount: Uint128)
  IsOwner _sender;
  AuthorizedMint recipient amount;
  (* Prevent sendin";
"g to a contract address that does not support transfers of token *)
  msg_to_recipient = {_tag : ""RecipientAcceptMint""; _recipient : recipient; _amount : zero; 
                      minter : _sender; recipient : recipient; amount : amount};
  msg_to_sender = {_tag : ""MintSuccessCallBack""; _recipient : _sender; _amount : zero; 
                      minter : _sender; recipient : recipient; amount : amount};
  msgs = two_msgs msg_to_recipient msg_to_sender;
  send msgs
end

(* @dev: Burn existing";
" tokens. Only contract_owner can burn.                      *)
(* @param burn_account: Address of the token_owner whose balance is to decrease.  *)
(* @param amount:       Number of tokens to be burned.                            *)
transition Burn(burn_account: ByStr20, amount: Uint128)
  IsOwner _sender;
  AuthorizedBurnIfSufficientBalance burn_account amount;
  msg_to_sender = {_tag : ""BurnSuccessCallBack""; _recipient : _sender; _amount : zero; 
                    burner : _sender; burn_acco";
"unt : burn_account; amount : amount};
  msgs = one_msg msg_to_sender;
  send msgs
end

(* @dev: Increase the allowance of an approved_spender over the caller tokens. Only token_owner allowed to invoke.   *)
(* param spender:      Address of the designated approved_spender.                                                   *)
(* param amount:       Number of tokens to be increased as allowance for the approved_spender.                       *)
transition IncreaseAllowance(spender: ByStr20, amount";
": Uint128)
  IsNotSender spender;
  some_current_allowance <- allowances[_sender][spender];
  current_allowance = get_val some_current_allowance;
  new_allowance = builtin add current_allowance amount;
  allowances[_sender][spender] := new_allowance;
  e = {_eventname : ""IncreasedAllowance""; token_owner : _sender; spender: spender; new_allowance : new_allowance};
  event e
end

(* @dev: Decrease the allowance of an approved_spender over the caller tokens. Only token_owner allowed to invoke. *)
(";
"* param spender:      Address of the designated approved_spender.                                                 *)
(* param amount:       Number of tokens to be decreased as allowance for the approved_spender.                     *)
transition DecreaseAllowance(spender: ByStr20, amount: Uint128)
  IsNotSender spender;
  some_current_allowance <- allowances[_sender][spender];
  current_allowance = get_val some_current_allowance;
  new_allowance =
    let amount_le_allowance = uint128_le amount ";
"current_allowance in
      match amount_le_allowance with
      | True => builtin sub current_allowance amount
      | False => zero
      end;
  allowances[_sender][spender] := new_allowance;
  e = {_eventname : ""DecreasedAllowance""; token_owner : _sender; spender: spender; new_allowance : new_allowance};
  event e
end

(* @dev: Moves an amount tokens from _sender to the recipient. Used by token_owner. *)
(* @dev: Balance of recipient will increase. Balance of _sender will decrease.      *)
(* ";
"@param to:  Address of the recipient whose balance is increased.                 *)
(* @param amount:     Amount of tokens to be sent.                                  *)
transition Transfer(to: ByStr20, amount: Uint128)
  AuthorizedMoveIfSufficientBalance _sender to amount;
  e = {_eventname : ""TransferSuccess""; sender : _sender; recipient : to; amount : amount};
  event e;
  (* Prevent sending to a contract address that does not support transfers of token *)
  msg_to_recipient = {_tag : ""Recip";
"ientAcceptTransfer""; _recipient : to; _amount : zero; 
                      sender : _sender; recipient : to; amount : amount};
  msg_to_sender = {_tag : ""TransferSuccessCallBack""; _recipient : _sender; _amount : zero; 
                  sender : _sender; recipient : to; amount : amount};
  msgs = two_msgs msg_to_recipient msg_to_sender;
  send msgs
end

(* @dev: Move a given amount of tokens from one address to another using the allowance mechanism. The caller must be an approved_spender. *)
(";
"* @dev: Balance of recipient will increase. Balance of token_owner will decrease.                                                        *)
(* @param from:    Address of the token_owner whose balance is decreased.                                                                 *)
(* @param to:      Address of the recipient whose balance is increased.                                                                   *)
(* @param amount:  Amount of tokens to be transferred.                        ";
"                                                            *)
transition TransferFrom(from: ByStr20, to: ByStr20, amount: Uint128)
  o_spender_allowed <- allowances[from][_sender];
  allowed = get_val o_spender_allowed;
  can_do = uint128_le amount allowed;
  match can_do with
  | True =>
    AuthorizedMoveIfSufficientBalance from to amount;
    e = {_eventname : ""TransferFromSuccess""; initiator : _sender; sender : from; recipient : to; amount : amount};
    event e;
    new_allowed = builtin s";
"ub allowed amount;
    allowances[from][_sender] := new_allowed;
    (* Prevent sending to a contract address that does not support transfers of token *)
    msg_to_recipient = {_tag: ""RecipientAcceptTransferFrom""; _recipient : to; _amount: zero; 
                        initiator: _sender; sender : from; recipient: to; amount: amount};
    msg_to_sender = {_tag: ""TransferFromSuccessCallBack""; _recipient: _sender; _amount: zero; 
                    initiator: _sender; sender: from; recipient: t";
"o; amount: amount};
    msgs = two_msgs msg_to_recipient msg_to_sender;
    send msgs
  | False =>
    err = CodeInsufficientAllowance;
    ThrowError err
  end
end
"]%string.

Local Definition src_ZRC2Interop : list string := ["scilla_version 0

(***************************************************)
(*               Associated library                *)
(***************************************************)
import IntUtils
library ZRC2Interop

let one_msg = 
  fun (msg : Message) => 
  let nil_msg = Nil {Message} in
  Cons {Message} msg nil_msg

let two_msgs =
fun (msg1 : Message) =>
fun (msg2 : Message) =>
  let msgs_tmp = one_msg msg2 in
  Cons {Message} msg1 msgs_tmp

(* Error events *)
type Error =
| CodeIsSender
| Co";
"deInsufficientFunds
| CodeInsufficientAllowance
| CodeNotOwner

let make_error =
  fun (result : Error) =>
    let result_code = 
      match result with
      | CodeIsSender              => Int32 -1
      | CodeInsufficientFunds     => Int32 -2
      | CodeInsufficientAllowance => Int32 -3
      | CodeNotOwner              => Int32 -4
      end
    in
    { _exception : ""Error""; code : result_code }
  
let zero = Uint128 0

(* Dummy user-defined ADT *)
type Unit =
| Unit

let get_val =
  fun (s";
"ome_val: Option Uint128) =>
  match some_val with
  | Some val => val
  | None => zero
  end

(***************************************************)
(*             The contract definition             *)
(***************************************************)

contract ZRC2Interop
(
  contract_owner: ByStr20,
  name : String,
  symbol: String,
  decimals: Uint32,
  init_supply : Uint128
)

(* Mutable fields *)

field total_supply : Uint128 = init_supply

field balances: Map ByStr20 Uint128 
  = let ";
"emp_map = Emp ByStr20 Uint128 in
    builtin put emp_map contract_owner init_supply

field allowances: Map ByStr20 (Map ByStr20 Uint128) 
  = Emp ByStr20 (Map ByStr20 Uint128)

(**************************************)
(*             Procedures             *)
(**************************************)

procedure ThrowError(err : Error)
  e = make_error err;
  throw e
end

procedure IsOwner(address: ByStr20)
  is_owner = builtin eq contract_owner address;
  match is_owner with
  | True =>
  | False ";
"=>
    err = CodeNotOwner;
    ThrowError err
  end
end

procedure IsNotSender(address: ByStr20)
  is_sender = builtin eq _origin address;
  match is_sender with
  | True =>
    err = CodeIsSender;
    ThrowError err
  | False =>
  end
end

procedure AuthorizedMint(recipient: ByStr20, amount: Uint128) 
  o_recipient_bal <- balances[recipient];
  bal = get_val o_recipient_bal;
  new_balance = builtin add amount bal;
  balances[recipient] := new_balance;
  current_total_supply <- total_supply;
  n";
"ew_total_supply = builtin add current_total_supply amount;
  total_supply := new_total_supply;
  e = {_eventname: ""Minted""; minter: _origin; recipient: recipient; amount: amount};
  event e
end

procedure AuthorizedBurnIfSufficientBalance(from: ByStr20, amount: Uint128)
  o_get_bal <- balances[from];
  bal = get_val o_get_bal;
  can_burn = uint128_le amount bal;
  match can_burn with
  | True =>
    (* Subtract amount from from *)
    new_balance = builtin sub bal amount;
    balances[from] := n";
"ew_balance;
    current_total_supply <- total_supply;
    new_total_supply = builtin sub current_total_supply amount;
    total_supply := new_total_supply;
    e = {_eventname: ""Burnt""; burner: _origin; burn_account: from; amount: amount};
    event e  
  | False =>
    err = CodeInsufficientFunds;
    ThrowError err
  end
end

procedure AuthorizedMoveIfSufficientBalance(from: ByStr20, to: ByStr20, amount: Uint128)
  o_from_bal <- balances[from];
  bal = get_val o_from_bal;
  can_do = uint128_le";
" amount bal;
  match can_do with
  | True =>
    (* Subtract amount from from and add it to to address *)
    new_from_bal = builtin sub bal amount;
    balances[from] := new_from_bal;
    (* Adds amount to to address *)
    get_to_bal <- balances[to];
    new_to_bal = match get_to_bal with
    | Some bal => builtin add bal amount
    | None => amount
    end;
    balances[to] := new_to_bal
  | False =>
    (* Balance not sufficient *)
    err = CodeInsufficientFunds;
    ThrowError err
  end
en";
"d

(***************************************)
(*             Transitions             *)
(***************************************)

(* @dev: Mint new tokens. Only contract_owner can mint.                      *)
(* @param recipient: Address of the recipient whose balance is to increase.  *)
(* @param amount:    Number of tokens to be minted.                          *)
transition Mint(recipient: ByStr20, amount: Uint128)
  IsOwner _origin;
  AuthorizedMint recipient amount;
  (* Prevent sending to";
" a contract address that does not support transfers of token *)
  msg_to_recipient = {_tag : ""RecipientAcceptMint""; _recipient : recipient; _amount : zero; 
                      minter : _origin; recipient : recipient; amount : amount};
  msg_to_sender = {_tag : ""MintSuccessCallBack""; _recipient : _origin; _amount : zero; 
                      minter : _origin; recipient : recipient; amount : amount};
  msgs = two_msgs msg_to_recipient msg_to_sender;
  send msgs
end

(* @dev: Burn existing tok";
"ens. Only contract_owner can burn.                      *)
(* @param burn_account: Address of the token_owner whose balance is to decrease.  *)
(* @param amount:       Number of tokens to be burned.                            *)
transition Burn(burn_account: ByStr20, amount: Uint128)
  IsOwner _origin;
  AuthorizedBurnIfSufficientBalance burn_account amount;
  msg_to_sender = {_tag : ""BurnSuccessCallBack""; _recipient : _origin; _amount : zero; 
                    burner : _origin; burn_account ";
": burn_account; amount : amount};
  msgs = one_msg msg_to_sender;
  send msgs
end

(* @dev: Increase the allowance of an approved_spender over the caller tokens. Only token_owner allowed to invoke.   *)
(* param spender:      Address of the designated approved_spender.                                                   *)
(* param amount:       Number of tokens to be increased as allowance for the approved_spender.                       *)
transition IncreaseAllowance(spender: ByStr20, amount: Ui";
"nt128)
  IsNotSender spender;
  some_current_allowance <- allowances[_origin][spender];
  current_allowance = get_val some_current_allowance;
  new_allowance = builtin add current_allowance amount;
  allowances[_origin][spender] := new_allowance;
  e = {_eventname : ""IncreasedAllowance""; token_owner : _origin; spender: spender; new_allowance : new_allowance};
  event e
end

(* @dev: Decrease the allowance of an approved_spender over the caller tokens. Only token_owner allowed to invoke. *)
(* pa";
"ram spender:      Address of the designated approved_spender.                                                 *)
(* param amount:       Number of tokens to be decreased as allowance for the approved_spender.                     *)
transition DecreaseAllowance(spender: ByStr20, amount: Uint128)
  IsNotSender spender;
  some_current_allowance <- allowances[_origin][spender];
  current_allowance = get_val some_current_allowance;
  new_allowance =
    let amount_le_allowance = uint128_le amount curr";
"ent_allowance in
      match amount_le_allowance with
      | True => builtin sub current_allowance amount
      | False => zero
      end;
  allowances[_origin][spender] := new_allowance;
  e = {_eventname : ""DecreasedAllowance""; token_owner : _origin; spender: spender; new_allowance : new_allowance};
  event e
end

(* @dev: Moves an amount tokens from _origin to the recipient. Used by token_owner. *)
(* @dev: Balance of recipient will increase. Balance of _origin will decrease.      *)
(* @par";
"am to:  Address of the recipient whose balance is increased.                 *)
(* @param amount:     Amount of tokens to be sent.                                  *)
transition Transfer(to: ByStr20, amount: Uint128)
  AuthorizedMoveIfSufficientBalance _origin to amount;
  e = {_eventname : ""TransferSuccess""; sender : _origin; recipient : to; amount : amount};
  event e;
  (* Prevent sending to a contract address that does not support transfers of token *)
  msg_to_recipient = {_tag : ""Recipient";
"AcceptTransfer""; _recipient : to; _amount : zero; 
                      sender : _origin; recipient : to; amount : amount};
  msg_to_sender = {_tag : ""TransferSuccessCallBack""; _recipient : _origin; _amount : zero; 
                  sender : _origin; recipient : to; amount : amount};
  msgs = two_msgs msg_to_recipient msg_to_sender;
  send msgs
end

(* @dev: Move a given amount of tokens from one address to another using the allowance mechanism. The caller must be an approved_spender. *)
(* @d";
"ev: Balance of recipient will increase. Balance of token_owner will decrease.                                                        *)
(* @param from:    Address of the token_owner whose balance is decreased.                                                                 *)
(* @param to:      Address of the recipient whose balance is increased.                                                                   *)
(* @param amount:  Amount of tokens to be transferred.                            ";
"                                                        *)
transition TransferFrom(from: ByStr20, to: ByStr20, amount: Uint128)
  o_spender_allowed <- allowances[from][_origin];
  allowed = get_val o_spender_allowed;
  can_do = uint128_le amount allowed;
  match can_do with
  | True =>
    AuthorizedMoveIfSufficientBalance from to amount;
    e = {_eventname : ""TransferFromSuccess""; initiator : _origin; sender : from; recipient : to; amount : amount};
    event e;
    new_allowed = builtin sub a";
"llowed amount;
    allowances[from][_origin] := new_allowed;
    (* Prevent sending to a contract address that does not support transfers of token *)
    msg_to_recipient = {_tag: ""RecipientAcceptTransferFrom""; _recipient : to; _amount: zero; 
                        initiator: _origin; sender : from; recipient: to; amount: amount};
    msg_to_sender = {_tag: ""TransferFromSuccessCallBack""; _recipient: _origin; _amount: zero; 
                    initiator: _origin; sender: from; recipient: to; a";
"mount: amount};
    msgs = two_msgs msg_to_recipient msg_to_sender;
    send msgs
  | False =>
    err = CodeInsufficientAllowance;
    ThrowError err
  end
end
"]%string.

Local Definition src_ZRC6 : list string := ["(* SPDX-License-Identifier: MIT *)
scilla_version 0

(***************************************************)
(*               Associated library                *)
(***************************************************)
import BoolUtils ListUtils IntUtils
library NonfungibleToken

type Operation =
| Add
| Sub

(* Global variables *)
let zero_address = 0x0000000000000000000000000000000000000000
let false = False
let true = True
let zero = Uint256 0
let one = Uint256 1
let empty_string = """"

let add_op";
"eration = Add
let sub_operation = Sub
let min_fee_bps = Uint128 1
let max_fee_bps = Uint128 10000

(* Library functions *)
let one_msg = 
  fun (msg: Message) => 
    let nil_msg = Nil {Message} in
    Cons {Message} msg nil_msg

let two_msgs =
  fun (msg1: Message) =>
  fun (msg2: Message) =>
    let msgs_tmp = one_msg msg2 in
    Cons {Message} msg1 msgs_tmp

let get_bal =
  fun (maybe_bal: Option Uint256) =>
    match maybe_bal with
    | None => zero
    | Some bal => bal
    end

(* Error e";
"xception *)
type Error =
  | NotPausedError
  | PausedError
  | SelfError
  | NotContractOwnerError
  | NotContractOwnershipRecipientError
  | NotTokenOwnerError
  | NotMinterError
  | NotOwnerOrOperatorError
  | MinterNotFoundError
  | MinterFoundError
  | SpenderFoundError
  | OperatorNotFoundError
  | OperatorFoundError
  | NotAllowedToTransferError
  | TokenNotFoundError
  | InvalidFeeBPSError
  | ZeroAddressDestinationError
  | ThisAddressDestinationError

let make_error =
  fun (result: Er";
"ror) =>
    let result_code = 
      match result with
      | NotPausedError                     => Int32 -1
      | PausedError                        => Int32 -2
      | SelfError                          => Int32 -3
      | NotContractOwnerError              => Int32 -4
      | NotTokenOwnerError                 => Int32 -5
      | NotMinterError                     => Int32 -6
      | NotOwnerOrOperatorError            => Int32 -7
      | MinterNotFoundError                => Int32 -8
     ";
" | MinterFoundError                   => Int32 -9
      | SpenderFoundError                  => Int32 -10
      | OperatorNotFoundError              => Int32 -11
      | OperatorFoundError                 => Int32 -12
      | NotAllowedToTransferError          => Int32 -13
      | TokenNotFoundError                 => Int32 -14
      | InvalidFeeBPSError                 => Int32 -15
      | ZeroAddressDestinationError        => Int32 -16
      | ThisAddressDestinationError        => Int32 -17
  ";
"    | NotContractOwnershipRecipientError => Int32 -18
      end
    in
    { _exception: ""Error""; code: result_code }

(***************************************************)
(*             The contract definition             *)
(***************************************************)

contract NonfungibleToken
(
  initial_contract_owner: ByStr20,
  (* Initial Base URI. e.g. `https://creatures-api.zilliqa.com/api/creature/` *)
  initial_base_uri: String,
  name: String,
  symbol: String
)

(* Contrac";
"t constraints *)
with
  (* `initial_contract_owner` must not be the zero address *)
  let is_contract_owner_invalid = builtin eq initial_contract_owner zero_address in
  (* `name` must not be an empty string *)
  let is_name_invalid = builtin eq name empty_string in
  (* `symbol` must not be an empty string *)
  let is_symbol_invalid = builtin eq symbol empty_string in
  (* Check if any parameter is invalid *)
  let is_name_or_symbol_invalid = orb is_name_invalid is_symbol_invalid in

  let is_i";
"nvalid = orb is_contract_owner_invalid is_name_or_symbol_invalid in
  negb is_invalid
=>

(* Mutable fields *)

(* Emergency stop mechanism *)
(* Defaults to False *)
field is_paused: Bool = false

(* Token Name *)
(* Defaults to `name` *)
(* No need to mutate this field since this is for remote fetch to retrieve the immutable parameter. *)
field token_name: String = name

(* Token Symbol *)
(* Defaults to `symbol` *)
(* No need to mutate this field since this is for remote fetch to retrieve the";
" immutable parameter. *)
field token_symbol: String = symbol

(* Contract Owner *)
(* Defaults to `initial_contract_owner` *)
field contract_owner: ByStr20 = initial_contract_owner

(* Contract ownership recipient *)
(* Defaults to `zero_address` *)
field contract_ownership_recipient: ByStr20 = zero_address

(* Address to send royalties to *)
(* Defaults to `initial_contract_owner` *)
field royalty_recipient: ByStr20 = initial_contract_owner

(* Royalty fee BPS *)
(* e.g. 1 = 0.01%, 10000 = 100%";
" *)
(* Defaults to 1000 *)
field royalty_fee_bps: Uint128 = Uint128 1000

(* Base URI *)
(* Defaults to `initial_base_uri` *)
field base_uri: String = initial_base_uri

(* Token URIs *)
field token_uris: Map Uint256 String = Emp Uint256 String

(* Mapping from token ID to its owner *)
field token_owners: Map Uint256 ByStr20 = Emp Uint256 ByStr20

(* The total number of tokens minted *)
field token_id_count: Uint256 = Uint256 0

(* The total number of existing tokens *)
field total_supply: Uint25";
"6 = Uint256 0

(* Mapping from token owner to the number of existing tokens *)
field balances: Map ByStr20 Uint256 = Emp ByStr20 Uint256

(* Set for minters *)
(* `initial_contract_owner` is a minter by default *)
field minters: Map ByStr20 Bool =
    let emp_map = Emp ByStr20 Bool in
    builtin put emp_map initial_contract_owner true

(* Mapping from token ID to a spender *)
field spenders: Map Uint256 ByStr20 = Emp Uint256 ByStr20

(* Mapping from token owner to operators authorized by the to";
"ken owner *)
field operators: Map ByStr20 (Map ByStr20 Bool) = Emp ByStr20 (Map ByStr20 Bool)

(* Emit Errors *)
procedure Throw(error: Error)
  e = make_error error;
  throw e
end

procedure RequireNotPaused()
  (* Reference: *)
  (* https://consensys.github.io/smart-contract-best-practices/general_philosophy/#prepare-for-failure *)
  paused <- is_paused;
  match paused with
  | False =>
  | True =>
    (* Contract is paused *)
    error = PausedError;
    Throw error
  end
end

procedure Requi";
"reValidRoyaltyFee(fee_bps: Uint128)
  is_gte_min = uint128_ge fee_bps min_fee_bps;
  is_lte_max = uint128_le fee_bps max_fee_bps;
  
  is_valid = andb is_gte_min is_lte_max;
  match is_valid with 
    | True => 
    | False =>
      error = InvalidFeeBPSError;
      Throw error
  end
end

procedure RequireContractOwner()
  cur_owner <- contract_owner;
  is_contract_owner = builtin eq cur_owner _sender;
  match is_contract_owner with
  | True => 
  | False =>
    error = NotContractOwnerError;
  ";
"  Throw error
  end
end

procedure RequireNotSelf(address_a: ByStr20, address_b: ByStr20)
  is_self = builtin eq address_a address_b;
  match is_self with
  | False =>
  | True =>
    error = SelfError;
    Throw error
  end
end

procedure RequireExistingToken(token_id: Uint256)
  has_token <- exists token_owners[token_id];
  match has_token with
  | True =>
  | False =>
    error = TokenNotFoundError;
    Throw error
  end
end

procedure RequireValidDestination(to: ByStr20)
  (* Reference: http";
"s://github.com/ConsenSys/smart-contract-best-practices/blob/master/docs/tokens.md *)
  is_zero_address = builtin eq to zero_address;
  match is_zero_address with
  | False =>
  | True =>
    error = ZeroAddressDestinationError;
    Throw error
  end;

  is_this_address = builtin eq to _this_address;
  match is_this_address with
  | False =>
  | True =>
    error = ThisAddressDestinationError;
    Throw error
  end
end

procedure IsMinter(address: ByStr20)
  has_minter <- exists minters[address];";
"
  match has_minter with
  | True =>
  | False =>
    error = NotMinterError;
    Throw error
  end
end

procedure RequireTokenOwner(token_id: Uint256, address: ByStr20)
  maybe_token_owner <- token_owners[token_id];
  match maybe_token_owner with
  | None =>
    error = TokenNotFoundError;
    Throw error
  | Some addr => 
    is_token_owner = builtin eq addr address;
    match is_token_owner with
    | True =>
    | False =>
      error = NotTokenOwnerError;
      Throw error
    end
  end
end";
"

procedure RequireOwnerOrOperator(address: ByStr20)
  is_owner = builtin eq _sender address;
  has_operator <- exists operators[address][_sender];
  is_allowed = orb is_owner has_operator;
  match is_allowed with
  | True =>
  | False =>
    error = NotOwnerOrOperatorError;
    Throw error
  end
end

procedure RequireAccessToTransfer(token_owner: ByStr20, token_id: Uint256)  
  (* check if _sender is token owner *)
  is_token_owner = builtin eq token_owner _sender;
  
  (* check if _sender is s";
"pender *)
  maybe_spender <- spenders[token_id];
  is_spender = match maybe_spender with
    | None => False
    | Some spender => 
      builtin eq spender _sender
    end;

  (* check if _sender is operator *)
  is_operator <- exists operators[token_owner][_sender];
  
  is_spender_or_operator = orb is_spender is_operator;
  is_allowed = orb is_spender_or_operator is_token_owner;
  match is_allowed with
  | True =>
  | False =>
    error = NotAllowedToTransferError;
    Throw error
  end
end

";
"procedure UpdateBalance(operation: Operation, address: ByStr20)
  match operation with
  | Add =>
    maybe_count <- balances[address];
    new_count = 
      let cur_count = get_bal maybe_count in
      (* if overflow occurs, it throws CALL_CONTRACT_FAILED *)
      builtin add cur_count one;
    balances[address] := new_count
  | Sub =>
    maybe_count <- balances[address];
    new_count = 
      let cur_count = get_bal maybe_count in
      (* if underflow occurs, it throws CALL_CONTRACT_FAILED";
" *)
      builtin sub cur_count one;
    balances[address] := new_count
  end
end

(* @Requirements: *)
(* - `to` must not be the zero address. Otherwise, it must throw `ZeroAddressDestinationError` *)
(* - `to` must not be `_this_address`. Otherwise, it must throw `ThisAddressDestinationError` *)
(* - `_sender` must be a minter. Otherwise, it must throw `NotMinterError` *)
procedure MintToken(to: ByStr20)
  RequireValidDestination to;

  IsMinter _sender;

  (* generate ID *)
  current_token_id";
"_count <- token_id_count;
  new_token_id_count = builtin add current_token_id_count one;
  token_id_count := new_token_id_count;
  token_id = new_token_id_count;

  (* mint a new token *)
  token_owners[token_id] := to;

  (* add one to the token owner balance *)
  UpdateBalance add_operation to;
  
  (* add one to the total supply *)
  current_supply <- total_supply;
  new_supply = builtin add current_supply one;
  total_supply := new_supply
end

procedure SetTokenURI(token_id: Uint256, token_u";
"ri: String)
  is_empty_string = builtin eq token_uri empty_string;
  match is_empty_string with 
  | True => 
    (* noop *)
  | False =>
    token_uris[token_id] := token_uri
  end
end

procedure HandleMint(info: Pair ByStr20 String)
  match info with
  | Pair to token_uri =>
    MintToken to;
    token_id <- token_id_count;
    SetTokenURI token_id token_uri
  end
end

(* @Requirements: *)
(* - `token_id` must exist. Otherwise, it must throw `TokenNotFoundError` *)
(* - `_sender` must be a tok";
"en owner or an operator. Otherwise, it must throw `NotOwnerOrOperatorError` *)
procedure BurnToken(token_id: Uint256)
  (* Check if token exists *)
  maybe_token_owner <- token_owners[token_id];
  match maybe_token_owner with
  | None =>
    error = TokenNotFoundError;
    Throw error
  | Some token_owner =>
    RequireOwnerOrOperator token_owner;
    (* Destroy existing token *)
    delete token_owners[token_id];
    delete spenders[token_id];

    (* subtract one from the balance *)
    Update";
"Balance sub_operation token_owner;
    (* subtract one from the total supply *)
    current_supply <- total_supply;
    new_supply = builtin sub current_supply one;
    total_supply := new_supply
  end
end

(* @Requirements: *)
(* - `to` must not be the zero address. Otherwise, it must throw `ZeroAddressDestinationError` *)
(* - `to` must not be `_this_address`. Otherwise, it must throw `ThisAddressDestinationError` *)
(* - `token_id` must exist. Otherwise, it must throw `TokenNotFoundError` *)
";
"(* - `_sender` must be a token owner, spender, or operator. Otherwise, it must throw `NotAllowedToTransferError` *)
(* - `_sender` must not be `to`. Otherwise, it must throw `SelfError` *)
procedure TransferToken(to: ByStr20, token_id: Uint256)
  RequireValidDestination to;

  maybe_token_owner <- token_owners[token_id];
  match maybe_token_owner with
  | None =>
    error = TokenNotFoundError;
    Throw error
  | Some token_owner =>
    RequireAccessToTransfer token_owner token_id;
    RequireN";
"otSelf token_owner to;
    
    (* change token_owner for that token_id *)
    token_owners[token_id] := to;

    delete spenders[token_id];

    (* subtract one from previous token owner balance *)
    UpdateBalance sub_operation token_owner;
    (* add one to the new token owner balance *)
    UpdateBalance add_operation to
  end
end

procedure HandleTransfer(info: Pair ByStr20 Uint256)
  match info with
  | Pair to token_id =>
    TransferToken to token_id
  end
end

(* Pauses the contract. U";
"se this when things are going wrong ('circuit breaker'). *)
(* @Requirements: *)
(* - The contract must not be paused. Otherwise, it must throw `PausedError` *)
(* - `_sender` must be the contract owner. Otherwise, it must throw `NotContractOwnerError` *)
transition Pause()
  RequireNotPaused;
  RequireContractOwner;

  is_paused := true;
  e = {
    _eventname: ""Pause"";
    is_paused: true
  };
  event e;
  msg_to_sender = {
    _tag: ""ZRC6_PauseCallback"";
    _recipient: _sender;
    _amount: ";
"Uint128 0;
    is_paused: true
  };
  msgs = one_msg msg_to_sender;
  send msgs
end

(* Unpauses the contract. *)
(* @Requirements: *)
(* - The contract must be paused. Otherwise, it must throw `NotPausedError` *)
(* - `_sender` must be the contract owner. Otherwise, it must throw `NotContractOwnerError` *)
transition Unpause()
  paused <- is_paused;
  match paused with
  | True =>
  | False =>
    error = NotPausedError;
    Throw error
  end;
  RequireContractOwner;

  is_paused := false;
  e ";
"= {
    _eventname: ""Unpause"";
    is_paused: false
  };
  event e;
  msg_to_sender = {
    _tag: ""ZRC6_UnpauseCallback"";
    _recipient: _sender;
    _amount: Uint128 0;
    is_paused: false
  };
  msgs = one_msg msg_to_sender;
  send msgs
end

(* Sets `to` as the royalty recipient. *)
(* @param: to - Royalty recipient address  *)
(* @Requirements: *)
(* - `_sender` must be the contract owner. Otherwise, it must throw `NotContractOwnerError` *)
(* - `to` must not be the zero address. Otherwise,";
" it must throw `ZeroAddressDestinationError` *)
(* - `to` must not be `_this_address`. Otherwise, it must throw `ThisAddressDestinationError` *)
transition SetRoyaltyRecipient(to: ByStr20)
  RequireContractOwner;
  RequireValidDestination to;
  
  royalty_recipient := to;
  
  e = { 
    _eventname: ""SetRoyaltyRecipient"";
    to: to
  };
  event e;
  msg_to_sender = {
    _tag: ""ZRC6_SetRoyaltyRecipientCallback""; 
    _recipient: _sender;
    _amount: Uint128 0;
    to: to
  };
  msgs = one_msg ";
"msg_to_sender;
  send msgs  
end

(* Sets `fee_bps` as royalty fee bps. *)
(* @param: fee_bps - Royalty fee BPS *)
(* @Requirements: *)
(* - `_sender` must be the contract owner. Otherwise, it must throw `NotContractOwnerError` *)
(* - `fee_bps` must be in the range of 1 and 10000. Otherwise, it must throw `InvalidFeeBPSError` *)
transition SetRoyaltyFeeBPS(fee_bps: Uint128)
  RequireContractOwner;
  RequireValidRoyaltyFee fee_bps;
  royalty_fee_bps := fee_bps;
  
  e = { 
    _eventname: ""SetRo";
"yaltyFeeBPS"";
    royalty_fee_bps: fee_bps
  };
  event e;
  msg_to_sender = {
    _tag: ""ZRC6_SetRoyaltyFeeBPSCallback""; 
    _recipient: _sender;
    _amount: Uint128 0;
    royalty_fee_bps: fee_bps
  };
  msgs = one_msg msg_to_sender;
  send msgs
end

(* Sets `uri` as the base URI. *)
(* @Requirements: *)
(* - `_sender` must be the contract owner. Otherwise, it must throw `NotContractOwnerError` *)
transition SetBaseURI(uri: String)
  RequireContractOwner;
  base_uri := uri;

  e = { 
    _ev";
"entname: ""SetBaseURI"";
    base_uri: uri
  };
  event e;
  msg_to_sender = {
    _tag: ""ZRC6_SetBaseURICallback""; 
    _recipient: _sender;
    _amount: Uint128 0;
    base_uri: uri
  };
  msgs = one_msg msg_to_sender;
  send msgs  
end

(* Mints a token with a specific `token_uri` and transfers it to `to`. *)
(* Pass empty string to `token_uri` to use the concatenated token URI. i.e. `<base_uri><token_id>`. *)
(* @param: to - Address of the token recipient *)
(* @param: token_uri - URI of a tok";
"en *)
(* @Requirements: *)
(* - The contract must not be paused. Otherwise, it must throw `PausedError` *)
transition Mint(to: ByStr20, token_uri: String)
  RequireNotPaused;
  MintToken to;
  token_id <- token_id_count;
  SetTokenURI token_id token_uri;

  e = {
    _eventname: ""Mint"";
    to: to;
    token_id: token_id;
    token_uri: token_uri
  };
  event e;
  msg_to_recipient = {
    _tag: ""ZRC6_RecipientAcceptMint"";
    _recipient: to;
    _amount: Uint128 0
  };
  msg_to_sender = {
    _t";
"ag: ""ZRC6_MintCallback"";
    _recipient: _sender;
    _amount: Uint128 0;
    to: to;
    token_id: token_id;
    token_uri: token_uri
  };
  msgs = two_msgs msg_to_recipient msg_to_sender;
  send msgs
end

(* Mints multiple tokens with `token_uri`s and transfers them to multiple `to`s. *)
(* Pass empty string to `token_uri` to use the concatenated token URI. i.e. `<base_uri><token_id>`. *)
(* @param: to_token_uri_pair_list - List of Pair (to, token_uri). *)
(* @Requirements: *)
(* - The contrac";
"t must not be paused. Otherwise, it must throw `PausedError` *)
transition BatchMint(to_token_uri_pair_list: List (Pair ByStr20 String))
  RequireNotPaused;
  cur_id <- token_id_count;
  start_id = builtin add cur_id one;
  forall to_token_uri_pair_list HandleMint;
  end_id <- token_id_count;
  e = {
    _eventname: ""BatchMint"";
    to_token_uri_pair_list: to_token_uri_pair_list;
    start_id: start_id;
    end_id: end_id
  };
  event e;
  msg_to_sender = {
    _tag: ""ZRC6_BatchMintCallback"";
  ";
"  _recipient: _sender;
    _amount: Uint128 0
  };
  msgs = one_msg msg_to_sender;
  send msgs
end

(* Destroys `token_id`. *)
(* @param: token_id - Unique ID of the NFT to be destroyed *)
(* @Requirements: *)
(* - The contract must not be paused. Otherwise, it must throw `PausedError` *)
transition Burn(token_id: Uint256)
  RequireNotPaused;
  (* Check if token exists *)
  maybe_token_owner <- token_owners[token_id];
  match maybe_token_owner with
  | None =>
    error = TokenNotFoundError;
   ";
" Throw error
  | Some token_owner =>
    BurnToken token_id;
    e = {
      _eventname: ""Burn"";
      token_owner: token_owner;
      token_id: token_id
    };
    event e;
    msg_to_sender = {
      _tag: ""ZRC6_BurnCallback"";
      _recipient: _sender;
      _amount: Uint128 0;
      token_owner: token_owner;
      token_id: token_id
    };
    msgs = one_msg msg_to_sender;
    send msgs
  end
end

(* Destroys `token_id_list`. *)
(* @param: token_id_list - List of unique IDs of the NFT to be ";
"destroyed *)
(* @Requirements: *)
(* - The contract must not be paused. Otherwise, it must throw `PausedError` *)
transition BatchBurn(token_id_list: List Uint256)
  RequireNotPaused;
  forall token_id_list BurnToken;
  e = {
    _eventname: ""BatchBurn"";
    token_id_list: token_id_list
  };
  event e;
  msg_to_sender = {
    _tag: ""ZRC6_BatchBurnCallback"";
    _recipient: _sender;
    _amount: Uint128 0
  };
  msgs = one_msg msg_to_sender;
  send msgs
end

(* Adds `minter`. *)
(* @Requirements:";
" *)
(* - `_sender` must be the contract owner. Otherwise, it must throw `NotContractOwnerError` *)
(* - `minter` must not be already a minter. Otherwise, it must throw `MinterFoundError` *)
transition AddMinter(minter: ByStr20)
  RequireContractOwner;
  has_minter <- exists minters[minter];
  match has_minter with
  | True => 
    error = MinterFoundError;
    Throw error
  | False =>
    (* Add minter *)
    minters[minter] := true
  end;
  e = { 
    _eventname: ""AddMinter"";
    minter: minter";
"
  };
  event e;
  msg_to_sender = {
    _tag: ""ZRC6_AddMinterCallback"";
    _recipient: _sender;
    _amount: Uint128 0;
    minter: minter
  };
  msgs = one_msg msg_to_sender;
  send msgs
end

(* Removes `minter`. *)
(* @Requirements: *)
(* - `_sender` must be the contract owner. Otherwise, it must throw `NotContractOwnerError` *)
(* - `minter` must be already a minter. Otherwise, it must throw `MinterNotFoundError` *)
transition RemoveMinter(minter: ByStr20)
  RequireContractOwner;
  has_mint";
"er <- exists minters[minter];
  match has_minter with
  | False =>
    error = MinterNotFoundError;
    Throw error
  | True => 
    delete minters[minter]
  end;
  e = { 
    _eventname: ""RemoveMinter"";
    minter: minter
  };
  event e;
  msg_to_sender = {
    _tag: ""ZRC6_RemoveMinterCallback"";
    _recipient: _sender;
    _amount: Uint128 0;
    minter: minter
  };
  msgs = one_msg msg_to_sender;
  send msgs
end

(* Sets `spender` for `token_id`. *)
(* To remove `spender` for a token, use `ze";
"ro_address`. *)
(* i.e., `0x0000000000000000000000000000000000000000` *)
(* @Requirements: *)
(* - `token_id` must exist. Otherwise, it must throw `TokenNotFoundError` *)
(* - `_sender` must be a token owner or an operator. Otherwise, it must throw `NotOwnerOrOperatorError` *)
(* - `_sender` must not be `spender`. Otherwise, it must throw `SelfError` *)
(* - `spender` must not be already a spender. Otherwise, it must throw `SpenderFoundError` *)
transition SetSpender(spender: ByStr20, token_id: ";
"Uint256)
  RequireNotSelf spender _sender;
  
  maybe_token_owner <- token_owners[token_id];
  match maybe_token_owner with
  | None =>
    error = TokenNotFoundError;
    Throw error
  | Some token_owner =>
    RequireOwnerOrOperator token_owner;
    
    (* Check if the spender exists *)
    maybe_spender <- spenders[token_id];
    match maybe_spender with
      | None =>
      | Some cur_spender =>
        has_spender = builtin eq cur_spender spender;
        match has_spender with 
        |";
" False =>
        | True => 
          error = SpenderFoundError;
          Throw error
        end
    end;
      
    spenders[token_id] := spender;

    e = {
      _eventname: ""SetSpender"";
      spender: spender;
      token_id: token_id
    };
    event e;
    msg_to_sender = {
      _tag: ""ZRC6_SetSpenderCallback"";
      _recipient: _sender;
      _amount: Uint128 0;
      spender: spender;
      token_id: token_id
    };
    msgs = one_msg msg_to_sender;
    send msgs
  end
end

(* Adds ";
"`operator` for `_sender`. *)
(* @Requirements: *)
(* - `_sender` must be the token owner. Otherwise, it must throw `NotTokenOwnerError` *)
(* - `_sender` must not be `operator`. Otherwise, it must throw `SelfError` *)
(* - `operator` must not be already an operator. Otherwise, it must throw `OperatorFoundError` *)
transition AddOperator(operator: ByStr20)
  RequireNotSelf operator _sender;
  
  maybe_bal <- balances[_sender];
  balance = get_bal maybe_bal;
  
  is_balance_zero = builtin eq zero ";
"balance;
  (* _sender must have at least 1 token *)
  match is_balance_zero with 
  | True =>    
    error = NotTokenOwnerError;
    Throw error
  | False =>
    has_operator <- exists operators[_sender][operator];
    match has_operator with
    | False =>
      (* Add operator *)
      operators[_sender][operator] := true
    | True =>
      error = OperatorFoundError;
      Throw error
    end;
    e = {
      _eventname: ""AddOperator"";
      operator: operator
    };
    event e;
    msg_to";
"_sender = {
      _tag: ""ZRC6_AddOperatorCallback"";
      _recipient: _sender;
      _amount: Uint128 0;
      operator: operator
    };
    msgs = one_msg msg_to_sender;
    send msgs
  end
end

(* Removes `operator` for `_sender`. *)
(* @Requirements:  *)
(* - `operator` must be already an operator of `_sender`. Otherwise, it must throw `OperatorNotFoundError` *)
transition RemoveOperator(operator: ByStr20)
  has_operator <- exists operators[_sender][operator];
  match has_operator with
  | Fa";
"lse =>
    error = OperatorNotFoundError;
    Throw error
  | True =>
    (* Remove operator *)
    delete operators[_sender][operator]
  end;
  e = {
    _eventname: ""RemoveOperator"";
    operator: operator
  };
  event e;
  msg_to_sender = {
    _tag: ""ZRC6_RemoveOperatorCallback"";
    _recipient: _sender;
    _amount: Uint128 0;
    operator: operator
  };
  msgs = one_msg msg_to_sender;
  send msgs
end

(* Transfers `token_id` from the token owner to `to`.  *)
(* @Requirements: *)
(* - The c";
"ontract must not be paused. Otherwise, it must throw `PausedError` *)
transition TransferFrom(to: ByStr20, token_id: Uint256)
  RequireNotPaused;
  maybe_token_owner <- token_owners[token_id];
  match maybe_token_owner with
  | None =>
    error = TokenNotFoundError;
    Throw error
  | Some token_owner =>
    TransferToken to token_id;
    e = {
      _eventname: ""TransferFrom""; 
      from: token_owner;
      to: to;
      token_id: token_id
    };
    event e;
    msg_to_recipient = {
      _";
"tag: ""ZRC6_RecipientAcceptTransferFrom"";
      _recipient: to;
      _amount: Uint128 0;
      from: token_owner;
      to: to;
      token_id: token_id
    };
    msg_to_sender = {
      _tag: ""ZRC6_TransferFromCallback"";
      _recipient: _sender;
      _amount: Uint128 0;
      from: token_owner;
      to: to;
      token_id: token_id
    };
    msgs = two_msgs msg_to_recipient msg_to_sender;
    send msgs
  end
end

(* Transfers multiple `token_id` to multiple `to`. *)
(* @param: to_token_id";
"_pair_list - List of Pair (to, token_id). *)
(* @Requirements: *)
(* - The contract must not be paused. Otherwise, it must throw `PausedError` *)
transition BatchTransferFrom(to_token_id_pair_list: List (Pair ByStr20 Uint256))
  RequireNotPaused;
  forall to_token_id_pair_list HandleTransfer;
  e = {
    _eventname: ""BatchTransferFrom""; 
    to_token_id_pair_list: to_token_id_pair_list
  };
  event e;
  msg_to_sender = {
    _tag: ""ZRC6_BatchTransferFromCallback"";
    _recipient: _sender;
    _a";
"mount: Uint128 0
  };
  msgs = one_msg msg_to_sender;
  send msgs
end

(* Sets `to` as the contract ownership recipient. *)
(* To reset `contract_ownership_recipient`, use `zero_address`. *)
(* i.e., `0x0000000000000000000000000000000000000000` *)
(* @param: to - Address of contract ownership recipient *)
(* @Requirements: *)
(* - `_sender` must be the contract owner. Otherwise, it must throw `NotContractOwnerError` *)
(* - `_sender` must not be `to`. Otherwise, it must throw `SelfError` *)
tran";
"sition SetContractOwnershipRecipient(to: ByStr20)
  RequireContractOwner;
  RequireNotSelf to _sender;
  
  contract_ownership_recipient := to;

  e = {
    _eventname: ""SetContractOwnershipRecipient"";
    to: to
  };
  event e;
  msg_to_sender = {
    _tag: ""ZRC6_SetContractOwnershipRecipientCallback"";
    _recipient: _sender;
    _amount: Uint128 0;
    to: to
  };
  msgs = one_msg msg_to_sender;
  send msgs
end

(* Sets `contract_ownership_recipient` as the contract owner. *)
(* @Requirements";
": *)
(* - `_sender` must be the contract ownership recipient. Otherwise, it must throw `NotContractOwnershipRecipientError` *)
transition AcceptContractOwnership()
  recipient <- contract_ownership_recipient;

  is_recipient = builtin eq _sender recipient;
  match is_recipient with
  | False =>
    error = NotContractOwnershipRecipientError;
    Throw error
  | True =>
    contract_owner := _sender;
    contract_ownership_recipient := zero_address;

    e = {
      _eventname: ""AcceptContractOwn";
"ership"";
      contract_owner: _sender
    };
    event e;
    msg_to_sender = {
      _tag: ""ZRC6_AcceptContractOwnershipCallback"";
      _recipient: _sender;
      _amount: Uint128 0;
      contract_owner: _sender
    };
    msgs = one_msg msg_to_sender;
    send msgs
  end
end
"]%string.

Local Definition src_chainid : list string := ["scilla_version 0
  
(***************************************************)
(*             The contract definition             *)
(***************************************************)

contract ChainId()
field dummy_field : Uint256 = Uint256 0

transition EventChainID ()
  cid <-& CHAINID;
  e = { _eventname : ""ChainID""; chain_id : cid };
  event e
end"]%string.

Local Definition src_multisig_wallet : list string := ["scilla_version 0

import ListUtils BoolUtils

(***************************************************)
(*               Associated library                *)
(***************************************************)
library WalletLib

(* Event for communicating a new transaction id *)
let mk_transaction_added_event =
  fun (tc : Uint32) =>
    { _eventname : ""Transaction created"" ;
     transactionId : tc }

(* Event for communicating that a transaction was signed *)
let mk_signed_transaction_event =
  ";
"fun (tc : Uint32) =>
    { _eventname : ""Transaction signed""; transactionId : tc }

(* Event for communicating that a signature was revoked *)
let mk_signature_revoked_event =
  fun (tc : Uint32) =>
    { _eventname : ""Signature revoked""; transactionId : tc }

type Error =
| NonOwnerCannotSign
| UnknownTransactionId
| InsufficientFunds
| NoSignatureListFound
| AlreadySigned
| NotAlreadySigned
| InvalidContract
| InvalidAmount
| NotEnoughSignatures
| SenderMayNotExecute
| NonOwnerCannotSubmit
| I";
"ncorrectSignatureCount

(* Error events *)
let mk_error_event =
  fun (err : Error) =>
  let err_code =
    match err with
    | NonOwnerCannotSign        => Int32 -1
    | UnknownTransactionId      => Int32 -2
    | InsufficientFunds         => Int32 -3
    | NoSignatureListFound      => Int32 -4
    | AlreadySigned             => Int32 -5
    | NotAlreadySigned          => Int32 -6
    | InvalidContract           => Int32 -7
    | InvalidAmount             => Int32 -8
    | NotEnoughSignatures";
"       => Int32 -9
    | SenderMayNotExecute       => Int32 -10
    | NonOwnerCannotSubmit      => Int32 -11
    | IncorrectSignatureCount   => Int32 -12
    end in
  { _eventname : ""WalletError"" ; err_code : err_code }

let t = True
let f = False
let zero = Uint32 0
let zeroUint128 = Uint128 0
let one = Uint32 1
let transaction_inc = one

type SSNCycleInfo =
| SSNCycleInfo of Uint128 Uint128

type SsnRewardShare =
| SsnRewardShare of ByStr20 Uint128


(* Type of Proxy transactions. *)
(* All ca";
"lls are made to the proxy contract *)
type CalleeTransaction =
(***************************************************)
(*               Proxy Transition                  *)
(***************************************************)
(* UpgradeTo(newImplementation: ByStr20) *)
| UpgradeTo of ByStr20
(* ChangeProxyAdmin(newAdmin: ByStr20) *)
| ChangeProxyAdmin of ByStr20
(* ClaimProxyAdmin() *)
| ClaimProxyAdmin
(***************************************************)
(*              gZIL Transitions        ";
"           *)
(***************************************************)
(* ChangeMinter(new_minter: ByStr20) *)
| ChangeMinter of ByStr20
(***************************************************)
(*              SSNlist Transitions                *)
(***************************************************)
(***************************************************)
(*            House keeping transition             *)
(***************************************************)
(* Pause() *)
| Pause
(* UnPause() *)
| Un";
"Pause
(* UpdateAdmin(new_admin: ByStr20) *)
| UpdateAdmin of ByStr20
(* ClaimAdmin() *)
| ClaimAdmin
(* UpdateVerifier(verif: ByStr20)  *)
| UpdateVerifier of ByStr20
(* UpdateVerifierRewardAddr(addr: ByStr20) *)
| UpdateVerifierRewardAddr of ByStr20
(* UpdateStakingParameters(min_stake: Uint128, min_deleg_stake: Uint128, max_comm_change_rate: Uint128) *)
| UpdateStakingParameters of Uint128 Uint128 Uint128
(* ChangeBNumReq(input_bnum_req: Uint128) *)
| ChangeBNumReq of Uint128
(* UpdateGzilAddr";
"(gzil_addr: ByStr20) *)
| UpdateGzilAddr of ByStr20
(* AddSSN(ssnaddr: ByStr20, name: String, urlraw: String, urlapi: String, comm: Uint128) *)
| AddSSN of ByStr20 String String String Uint128
(* AddSSNNonStaking(ssnaddr: ByStr20, name: String, urlraw: String, urlapi: String, comm: Uint128) *)
| AddSSNNonStaking of ByStr20 String String String Uint128
(* OptOutSSNFromConsensusPoolAdminOverride(ssnaddr: ByStr20) *)
| OptInSSNToConsensusPoolAdminOverride of ByStr20
(* OptOutSSNFromConsensusPoolAdm";
"inOverride(ssnaddr: ByStr20) *)
| OptOutSSNFromConsensusPoolAdminOverride of ByStr20
(* RemoveFromConsensusPoolAdminOverride(ssnaddr: ByStr20) *)
| RemoveFromConsensusPoolAdminOverride of ByStr20
(* ChangeMinCommissionRate(mincommrate_value: Uint128) *)
| ChangeMinCommissionRate of Uint128
(* UpdateSSN(ssnaddr: ByStr20, new_name: String, new_urlraw: String, new_urlapi: String) *)
| UpdateSSN of ByStr20 String String String
(***************************************************)
(*                 ";
" Generic transition             *)
(***************************************************)
(* AddSSNAfterUpgrade(ssnaddr: ByStr20, stake_amt: Uint128, rewards: Uint128, name: String, urlraw: String, urlapi: String, buff_deposit: Uint128, comm: Uint128, comm_rewards: Uint128, rec_addr: ByStr20) *)
| AddSSNAfterUpgrade of ByStr20 Uint128 Uint128 String String String Uint128 Uint128 Uint128 ByStr20
(***************************************************)
(*         Contract upgrade transition           ";
"  *)
(***************************************************)
(* UpdateDeleg(ssnaddr: ByStr20, deleg: ByStr20, stake_amt: Uint128) *)
| UpdateDeleg of ByStr20 ByStr20 Uint128
(* PopulateStakeSSNPerCycle(ssn_addr: ByStr20, cycle: Uint32, totalAmt: Uint128, rewards: Uint128) *)
| PopulateStakeSSNPerCycle of ByStr20 Uint32 Uint128 Uint128 
(* PopulateLastWithdrawCycleForDeleg(deleg_addr: ByStr20, ssn_addr: ByStr20, cycle: Uint32) *)
| PopulateLastWithdrawCycleForDeleg of ByStr20 ByStr20 Uint32
(* Popu";
"lateLastBufDepositCycleDeleg(deleg_addr: ByStr20, ssn_addr: ByStr20, cycle: Uint32) *)
| PopulateLastBufDepositCycleDeleg of ByStr20 ByStr20 Uint32
(* PopulateBuffDeposit(deleg_addr: ByStr20, ssn_addr: ByStr20, cycle: Uint32, amt: Uint128) *)
| PopulateBuffDeposit of ByStr20 ByStr20 Uint32 Uint128
(* PopulateDirectDeposit(deleg_addr: ByStr20, ssn_addr: ByStr20, cycle: Uint32, amt: Uint128) *)
| PopulateDirectDeposit of ByStr20 ByStr20 Uint32 Uint128
(* PopulateDepositAmtDeleg(deleg_addr: ByStr20";
", ssn_addr: ByStr20, amt: Uint128) *)
| PopulateDepositAmtDeleg of ByStr20 ByStr20 Uint128
(* PopulateDelegStakePerCycle(deleg_addr: ByStr20, ssn_addr: ByStr20, cycle: Uint32, amt: Uint128) *)
| PopulateDelegStakePerCycle of ByStr20 ByStr20 Uint32 Uint128
(* PopulateLastRewardCycle(cycle: Uint32) *)
| PopulateLastRewardCycle of Uint32
(* PopulateCommForSSN(ssn_addr: ByStr20, cycle: Uint32, comm: Uint128) *)
| PopulateCommForSSN of ByStr20 Uint32 Uint128
(* PopulateTotalStakeAmt(amt: Uint128) *)
";
"| PopulateTotalStakeAmt of Uint128
(* PopulatePendingWithdrawal(ssn_addr: ByStr20, block_number: BNum, stake: Uint128) *)
| PopulatePendingWithdrawal of ByStr20 BNum Uint128
(* DrainContractBalance(amt: Uint128) *)
| DrainContractBalance of Uint128
(* CopySSNDelegAmt(ssn: ByStr20, keys: List (Pair ByStr20 Uint128) *)
| CopySSNDelegAmt of ByStr20 (List (Pair ByStr20 Uint128))
(* MigrateStakeSSNPerCycle(ssn: ByStr20, keys: List (Pair Uint32 (Pair Uint128 Uint128)) *)
| MigrateStakeSSNPerCycle of B";
"yStr20 (List (Pair Uint32 (Pair Uint128 Uint128)))
(* CopyBuffDepositDeleg(deleg: ByStr20, keys: List (Pair ByStr20 (List (Pair Uint32 Uint128)) *)
| CopyBuffDepositDeleg of ByStr20 (List (Pair ByStr20 (List (Pair Uint32 Uint128))))
(* CopyLastBufDepositCycleDelegList(last_buf_deposit_cycle_deleg_list: (List (Pair ByStr20 (List (Pair ByStr20 Uint32)))) *)
| CopyLastBufDepositCycleDelegList of (List (Pair ByStr20 (List (Pair ByStr20 Uint32))))
(* CopyLastWithdrawCycleDelegList(last_withdraw_cycle";
"_deleg_list: (List (Pair ByStr20 (List (Pair ByStr20 Uint32)))) *)
| CopyLastWithdrawCycleDelegList of (List (Pair ByStr20 (List (Pair ByStr20 Uint32))))
(* CopyDelegStakePerCycleList(deleg_stake_per_cycle_list: (List (Pair ByStr20 (List (Pair ByStr20 (List (Pair Uint32 Uint128)))))) *)
| CopyDelegStakePerCycleList of (List (Pair ByStr20 (List (Pair ByStr20 (List (Pair Uint32 Uint128))))))
(* CopyDirectDepositDelegList(direct_deposit_deleg_list: (List (Pair ByStr20 (List (Pair ByStr20 (List (Pai";
"r Uint32 Uint128)))))) *)
| CopyDirectDepositDelegList of (List (Pair ByStr20 (List (Pair ByStr20 (List (Pair Uint32 Uint128))))))
(* CopyBuffDepositDelegList(buff_deposit_deleg_list: (List (Pair ByStr20 (List (Pair ByStr20 (List (Pair Uint32 Uint128)))))) *)
| CopyBuffDepositDelegList of (List (Pair ByStr20 (List (Pair ByStr20 (List (Pair Uint32 Uint128))))))
(* CopyDepositAmtDelegList(deposit_amt_deleg_list: (List (Pair ByStr20 (List (Pair ByStr20 Uint128)))) *)
| CopyDepositAmtDelegList of (L";
"ist (Pair ByStr20 (List (Pair ByStr20 Uint128))))
(* CopyWithDrawalPendingList(withdrawal_pending_list: (List (Pair ByStr20 (List (Pair BNum Uint128)))) *)
| CopyWithDrawalPendingList of (List (Pair ByStr20 (List (Pair BNum Uint128))))
(* CopyCommForSSNList(comm_for_ssn_list: (List (Pair ByStr20 (List (Pair Uint32 Uint128))))) *)
| CopyCommForSSNList of (List (Pair ByStr20 (List (Pair Uint32 Uint128))))
(* CopyDelegSwapRequest(deleg_swap_request_list: (List (Pair ByStr20 ByStr20))) *)
| CopyDele";
"gSwapRequest of (List (Pair ByStr20 ByStr20))
(* ChangeCycleRewardsDeleg(input_cycle_rewards_deleg: Uint128) *)
| ChangeCycleRewardsDeleg of Uint128
(* ChangeVerifierReward(input_verifier_reward: Uint128) *)
| ChangeVerifierReward of Uint128
(* ChangeAvailableWithdrawal(input_available_withdrawal: Uint128) *)
| ChangeAvailableWithdrawal of Uint128
(* ChangeCurrentDeleg(input_current_deleg: ByStr20) *)
| ChangeCurrentDeleg of ByStr20
(* ChangeCurrentSSN(input_current_ssn: ByStr20) *)
| ChangeCurr";
"entSSN of ByStr20
(* ChangeNewDeleg(input_new_deleg: ByStr20) *)
| ChangeNewDeleg of ByStr20
(* ChangeVerifier(input_verifier: ByStr20) *)
| ChangeVerifier of ByStr20
(* ChangeVerifierReceivingAddr(input_verifier_receiving_addr: ByStr20) *)
| ChangeVerifierReceivingAddr of ByStr20
(* ChangeMinStake(input_minstake: Uint128) *)
| ChangeMinStake of Uint128
(* ChangeMinDelegStake(input_mindelegstake: Uint128) *)
| ChangeMinDelegStake of Uint128
(* ChangeLastRewardCycle(input_lastrewardcycle: Uint32)";
" *)
| ChangeLastRewardCycle of Uint32
(* ChangeMaxCommChangeRate(input_maxcommchangerate: Uint128) *)
| ChangeMaxCommChangeRate of Uint128
(* ChangeMaxCommRate(input_maxcommrate: Uint128) *)
| ChangeMaxCommRate of Uint128
(* ChangeTotalStakeAmount(input_totalstakeamount: Uint128) *)
| ChangeTotalStakeAmount of Uint128


(* Type of (outstanding) transactions *)
type Transaction =
(* Transfer of native tokens *)
| NativeTransaction of ByStr20 Uint128 String
(* Custom token transactions *)
| Custom";
"Transaction of ByStr20 CalleeTransaction

(* Make map of owners *)
let mk_owners_map =
  fun (owners : List ByStr20) =>
    let init = Emp ByStr20 Bool in
    let iter =
      fun (acc : Map ByStr20 Bool) =>
      fun (cur_owner : ByStr20) =>
        (* Add owner unconditionally. We check for duplicates later *)
        builtin put acc cur_owner t
        in
    let folder = @list_foldl ByStr20 (Map ByStr20 Bool) in
    folder iter init owners

(* Wrap single message into singleton list *)
let o";
"ne_msg =
  fun (msg : Message) =>
    let nil_msg = Nil {Message} in
    Cons {Message} msg nil_msg

(* Create native transaction message as singleton list *)
let native_transaction_msg_as_list =
  fun (recipient : ByStr20) =>
  fun (amount : Uint128) =>
  fun (tag : String) =>
    let msg = {_tag : tag; _recipient : recipient; _amount : amount } in
    one_msg msg

(* Create custom transaction message as singleton list *)
let custom_transaction_msg_as_list =
  fun (calleeContract : ByStr20) =>
";
"  fun (calleeTransaction : CalleeTransaction) =>
    let msg =
      match calleeTransaction with
        (* UpgradeTo(newImplementation: ByStr20) *)
      | UpgradeTo newImplementation =>
        {_recipient: calleeContract ;
         _tag: ""UpgradeTo"";
         _amount: Uint128 0;
         newImplementation : newImplementation}
        (* ChangeProxyAdmin(newAdmin: ByStr20) *)
      | ChangeProxyAdmin newAdmin =>
        {_recipient: calleeContract;
         _tag: ""ChangeProxyAdmin"";
         ";
"_amount: Uint128 0;
         newAdmin: newAdmin}
        (* ClaimProxyAdmin() *)
      | ClaimProxyAdmin =>
        {_recipient: calleeContract;
         _tag: ""ClaimProxyAdmin"";
         _amount: Uint128 0}
        (* ChangeMinter(new_minter: ByStr20) *)
      | ChangeMinter new_minter =>
        {_recipient: calleeContract;
         _tag: ""ChangeMinter"";
         _amount: Uint128 0;
         new_minter: new_minter}
        (* Pause() *)
      | Pause =>
        {_recipient: calleeContract;
   ";
"      _tag: ""Pause"";
         _amount: Uint128 0}
        (* UnPause() *)
      | UnPause =>
        {_recipient: calleeContract ;
         _tag: ""UnPause"";
         _amount: Uint128 0}
        (* UpdateAdmin(new_admin: ByStr20) *)
      | UpdateAdmin new_admin =>
        {_recipient: calleeContract;
         _tag: ""UpdateAdmin"";
         _amount: Uint128 0;
         new_admin: new_admin}
        (* ClaimAdmin() *)
      | ClaimAdmin => 
        {_recipient: calleeContract;
        _tag: ""ClaimA";
"dmin"";
        _amount: Uint128 0}
        (* UpdateVerifier(verif: ByStr20)  *)
      | UpdateVerifier verif =>
        {_recipient: calleeContract;
         _tag: ""UpdateVerifier"";
         _amount: Uint128 0;
         verif: verif}
        (* UpdateVerifierRewardAddr(addr: ByStr20) *)
      | UpdateVerifierRewardAddr addr =>
        {_recipient : calleeContract;
         _tag: ""UpdateVerifierRewardAddr"";
         _amount: Uint128 0;
         addr: addr}
        (* UpdateStakingParameters(min_";
"stake: Uint128, min_deleg_stake: Uint128, max_comm_change_rate: Uint128) *)
      | UpdateStakingParameters min_stake min_deleg_stake max_comm_change_rate =>
        {_recipient : calleeContract;
         _tag: ""UpdateStakingParameters"";
         _amount: Uint128 0;
         min_stake: min_stake;
         min_deleg_stake: min_deleg_stake;
         max_comm_change_rate: max_comm_change_rate}
        (* ChangeBNumReq(input_bnum_req: Uint128) *)
      | ChangeBNumReq input_bnum_req =>
        {_rec";
"ipient : calleeContract;
         _tag: ""ChangeBNumReq"";
         _amount: Uint128 0;
         input_bnum_req: input_bnum_req}
        (* UpdateGzilAddr(gzil_addr: ByStr20) *)
      | UpdateGzilAddr gzil_addr  =>
        {_recipient : calleeContract;
         _tag: ""UpdateGzilAddr"";
         _amount: Uint128 0;
         gzil_addr: gzil_addr}
        (* AddSSN(ssnaddr: ByStr20, name: String, urlraw: String, urlapi: String, comm: Uint128) *)
      | AddSSN ssnaddr name urlraw urlapi comm =>
      ";
"  {_recipient : calleeContract;
         _tag: ""AddSSN"";
         _amount: Uint128 0;
         ssnaddr: ssnaddr;
         name: name;
         urlraw: urlraw;
         urlapi: urlapi;
         comm: comm}
        (* UpdateSSN(ssnaddr: ByStr20, new_name: String, new_urlraw: String, new_urlapi: String) *)
      | UpdateSSN ssnaddr new_name new_urlraw new_urlapi =>
        {_recipient : calleeContract;
         _tag: ""UpdateSSN"";
         _amount: Uint128 0;
         ssnaddr: ssnaddr;
         new_";
"name: new_name;
         new_urlraw: new_urlraw;
         new_urlapi: new_urlapi}
        (* AddSSNAfterUpgrade(ssnaddr: ByStr20, stake_amt: Uint128, rewards: Uint128, name: String, urlraw: String, urlapi: String, buff_deposit: Uint128, comm: Uint128, comm_rewards: Uint128, rec_addr: ByStr20) *)
      | AddSSNAfterUpgrade ssnaddr stake_amt rewards name urlraw urlapi buff_deposit comm comm_rewards rec_addr =>
        {_recipient : calleeContract;
         _tag: ""AddSSNAfterUpgrade"";
         _amo";
"unt: Uint128 0;
         ssnaddr: ssnaddr;
         stake_amt: stake_amt;
         rewards: rewards;
         name: name;
         urlraw: urlraw;
         urlapi: urlapi;
         buff_deposit: buff_deposit;
         comm: comm;
         comm_rewards: comm_rewards;
         rec_addr: rec_addr}
        (* AddSSNNonStaking(ssnaddr: ByStr20, name: String, urlraw: String, urlapi: String, comm: Uint128) *)
      | AddSSNNonStaking ssnaddr name urlraw urlapi comm =>
        {_recipient : calleeContra";
"ct;
        _tag: ""AddSSNNonStaking"";
        _amount: Uint128 0;
        ssnaddr: ssnaddr;
        name: name;
        urlraw: urlraw;
        urlapi: urlapi;
        comm: comm}
        (* OptInSSNToConsensusPoolAdminOverride(ssnaddr: ByStr20) *)
      | OptInSSNToConsensusPoolAdminOverride ssnaddr =>
        {_recipient : calleeContract;
        _tag: ""OptInSSNToConsensusPoolAdminOverride"";
        _amount: Uint128 0;
        ssnaddr: ssnaddr}
        (* OptOutSSNFromConsensusPoolAdminOverrid";
"e(ssnaddr: ByStr20) *)
      | OptOutSSNFromConsensusPoolAdminOverride ssnaddr =>
        {_recipient : calleeContract;
        _tag: ""OptOutSSNFromConsensusPoolAdminOverride"";
        _amount: Uint128 0;
        ssnaddr: ssnaddr}
        (* RemoveFromConsensusPoolAdminOverride(ssnaddr: ByStr20) *)
      | RemoveFromConsensusPoolAdminOverride ssnaddr =>
        {_recipient : calleeContract;
        _tag: ""RemoveFromConsensusPoolAdminOverride"";
        _amount: Uint128 0;
        ssnaddr: ssnaddr";
"}
        (* ChangeMinCommissionRate(mincommrate_value: Uint128) *)
      | ChangeMinCommissionRate mincommrate_value =>
        {_recipient : calleeContract;
        _tag: ""ChangeMinCommissionRate"";
        _amount: Uint128 0;
        mincommrate_value: mincommrate_value}
        (* UpdateDeleg(ssnaddr: ByStr20, deleg: ByStr20, stake_amt: Uint128) *)
      | UpdateDeleg ssnaddr deleg stake_amt =>
        {_recipient : calleeContract;
         _tag: ""UpdateDeleg"";
         _amount: Uint128 0;
  ";
"       ssnaddr: ssnaddr;
         deleg: deleg;
         stake_amt: stake_amt}
        (* PopulateStakeSSNPerCycle(ssn_addr: ByStr20, cycle: Uint32, totalAmt: Uint128, rewards: Uint128) *)
      | PopulateStakeSSNPerCycle ssn_addr cycle totalAmt rewards =>
        {_recipient: calleeContract;
         _tag: ""PopulateStakeSSNPerCycle"";
         _amount : Uint128 0;
         ssn_addr: ssn_addr;
         cycle: cycle;
         totalAmt: totalAmt;
         rewards: rewards}
        (* PopulateLastWi";
"thdrawCycleForDeleg(deleg_addr: ByStr20, ssn_addr: ByStr20, cycle: Uint32) *)
      | PopulateLastWithdrawCycleForDeleg deleg_addr ssn_addr cycle =>
        {_recipient: calleeContract;
         _tag: ""PopulateLastWithdrawCycleForDeleg"";
         _amount: Uint128 0;
         deleg_addr: deleg_addr;
         ssn_addr: ssn_addr;
         cycle: cycle}
        (* PopulateLastBufDepositCycleDeleg(deleg_addr: ByStr20, ssn_addr: ByStr20, cycle: Uint32) *)
      | PopulateLastBufDepositCycleDeleg deleg";
"_addr ssn_addr cycle =>
        {_recipient: calleeContract;
         _tag: ""PopulateLastBufDepositCycleDeleg"";
         _amount: Uint128 0;
         deleg_addr: deleg_addr;
         ssn_addr: ssn_addr;
         cycle: cycle}
        (* PopulateBuffDeposit(deleg_addr: ByStr20, ssn_addr: ByStr20, cycle: Uint32, amt: Uint128) *)
      | PopulateBuffDeposit deleg_addr ssn_addr cycle amt =>
        {_recipient: calleeContract;
         _tag: ""PopulateBuffDeposit"";
         _amount: Uint128 0;
      ";
"   deleg_addr: deleg_addr;
         ssn_addr: ssn_addr;
         cycle: cycle;
         amt: amt}
        (* PopulateDirectDeposit(deleg_addr: ByStr20, ssn_addr: ByStr20, cycle: Uint32, amt: Uint128) *)
      | PopulateDirectDeposit deleg_addr ssn_addr cycle amt =>
        {_recipient: calleeContract;
         _tag: ""PopulateDirectDeposit"";
         _amount: Uint128 0;
         deleg_addr: deleg_addr;
         ssn_addr: ssn_addr;
         cycle: cycle;
         amt: amt}
        (* PopulateDepos";
"itAmtDeleg(deleg_addr: ByStr20, ssn_addr: ByStr20, amt: Uint128) *)
      | PopulateDepositAmtDeleg deleg_addr ssn_addr amt =>
        {_recipient: calleeContract;
         _tag: ""PopulateDepositAmtDeleg"";
         _amount: Uint128 0;
         deleg_addr: deleg_addr;
         ssn_addr: ssn_addr;
         amt: amt}
        (* PopulateDelegStakePerCycle(deleg_addr: ByStr20, ssn_addr: ByStr20, cycle: Uint32, amt: Uint128) *)
      | PopulateDelegStakePerCycle deleg_addr ssn_addr cycle amt =>
      ";
"  {_recipient: calleeContract;
         _tag: ""PopulateDelegStakePerCycle"";
         _amount: Uint128 0;
         deleg_addr: deleg_addr;
         ssn_addr: ssn_addr;
         cycle: cycle;
         amt: amt}
        (* PopulateLastRewardCycle(cycle: Uint32) *)
      | PopulateLastRewardCycle cycle => 
        {_recipient: calleeContract;
         _tag: ""PopulateLastRewardCycle"";
         _amount: Uint128 0;
         cycle: cycle}
        (* PopulateCommForSSN(ssn_addr: ByStr20, cycle: Uint32, c";
"omm: Uint128) *)
      | PopulateCommForSSN ssn_addr cycle comm =>
        {_recipient : calleeContract;
         _tag: ""PopulateCommForSSN"";
         _amount: Uint128 0;
         ssn_addr: ssn_addr;
         cycle: cycle;
         comm: comm}
        (* PopulateTotalStakeAmt(amt: Uint128) *)
      | PopulateTotalStakeAmt amt =>
        {_recipient: calleeContract;
         _tag: ""PopulateTotalStakeAmt"";
         _amount: Uint128 0;
         amt: amt}
        (* PopulatePendingWithdrawal(ssn_add";
"r: ByStr20, block_number: BNum, stake: Uint128) *)
      | PopulatePendingWithdrawal ssn_addr block_number stake =>
        {_recipient: calleeContract;
         _tag: ""PopulatePendingWithdrawal"";
         _amount: Uint128 0;
         ssn_addr: ssn_addr;
         block_number: block_number;
         stake: stake}
        (* DrainContractBalance(amt: Uint128) *)
      | DrainContractBalance amt =>
        {_recipient : calleeContract;
         _tag : ""DrainContractBalance"";
         _amount : Uin";
"t128 0;
         amt: amt}
        (* CopySSNDelegAmt(ssn: ByStr20, keys: List (Pair ByStr20 Uint128) *)
      | CopySSNDelegAmt ssn keys =>
        {_recipient : calleeContract;
        _tag : ""CopySSNDelegAmt"";
        _amount : Uint128 0;
        ssn: ssn;
        keys: keys}
        (* MigrateStakeSSNPerCycle(ssn: ByStr20, keys: List (Pair Uint32 (Pair Uint128 Uint128)) *)
      | MigrateStakeSSNPerCycle ssn keys =>
      {_recipient : calleeContract;
        _tag : ""MigrateStakeSSNPerCycle""";
";
        _amount : Uint128 0;
        ssn: ssn;
        keys: keys}
        (* CopyBuffDepositDeleg(deleg: ByStr20, keys: List (Pair ByStr20 (List (Pair Uint32 Uint128)) *)
      | CopyBuffDepositDeleg deleg keys =>
        {_recipient : calleeContract;
          _tag : ""CopyBuffDepositDeleg"";
          _amount : Uint128 0;
          deleg: deleg;
          keys: keys}
        (* CopyLastBufDepositCycleDelegList(last_buf_deposit_cycle_deleg_list: (List (Pair ByStr20 (List (Pair ByStr20 Uint32))";
")) *)
      | CopyLastBufDepositCycleDelegList last_buf_deposit_cycle_deleg_list =>
        {_recipient : calleeContract;
          _tag : ""CopyLastBufDepositCycleDelegList"";
          _amount : Uint128 0;
          last_buf_deposit_cycle_deleg_list: last_buf_deposit_cycle_deleg_list}
        (* CopyLastWithdrawCycleDelegList(last_withdraw_cycle_deleg_list: (List (Pair ByStr20 (List (Pair ByStr20 Uint32)))) *)
      | CopyLastWithdrawCycleDelegList last_withdraw_cycle_deleg_list =>
        {_rec";
"ipient : calleeContract;
          _tag : ""CopyLastWithdrawCycleDelegList"";
          _amount : Uint128 0;
          last_withdraw_cycle_deleg_list: last_withdraw_cycle_deleg_list}
        (* CopyDelegStakePerCycleList(deleg_stake_per_cycle_list: (List (Pair ByStr20 (List (Pair ByStr20 (List (Pair Uint32 Uint128)))))) *)
      | CopyDelegStakePerCycleList deleg_stake_per_cycle_list =>
        {_recipient : calleeContract;
          _tag : ""CopyDelegStakePerCycleList"";
          _amount : Uint128";
" 0;
          deleg_stake_per_cycle_list: deleg_stake_per_cycle_list}
        (* CopyDirectDepositDelegList(direct_deposit_deleg_list: (List (Pair ByStr20 (List (Pair ByStr20 (List (Pair Uint32 Uint128)))))) *)
      | CopyDirectDepositDelegList direct_deposit_deleg_list =>
        {_recipient : calleeContract;
          _tag : ""CopyDirectDepositDelegList"";
          _amount : Uint128 0;
          direct_deposit_deleg_list: direct_deposit_deleg_list}
        (* CopyBuffDepositDelegList(buff_depo";
"sit_deleg_list: (List (Pair ByStr20 (List (Pair ByStr20 (List (Pair Uint32 Uint128)))))) *)
      | CopyBuffDepositDelegList buff_deposit_deleg_list =>
        {_recipient : calleeContract;
          _tag : ""CopyBuffDepositDelegList"";
          _amount : Uint128 0;
          buff_deposit_deleg_list: buff_deposit_deleg_list}
        (* CopyDepositAmtDelegList(deposit_amt_deleg_list: (List (Pair ByStr20 (List (Pair ByStr20 Uint128)))) *)
      | CopyDepositAmtDelegList deposit_amt_deleg_list =>
  ";
"      {_recipient : calleeContract;
          _tag : ""CopyDepositAmtDelegList"";
          _amount : Uint128 0;
          deposit_amt_deleg_list: deposit_amt_deleg_list}
        (* CopyWithDrawalPendingList(withdrawal_pending_list: (List (Pair ByStr20 (List (Pair BNum Uint128)))) *)
      | CopyWithDrawalPendingList withdrawal_pending_list =>
        {_recipient : calleeContract;
          _tag : ""CopyWithDrawalPendingList"";
          _amount : Uint128 0;
          withdrawal_pending_list: withdr";
"awal_pending_list}
        (* CopyCommForSSNList(comm_for_ssn_list: (List (Pair ByStr20 (List (Pair Uint32 Uint128))))) *)
      | CopyCommForSSNList comm_for_ssn_list =>
        {_recipient : calleeContract;
          _tag : ""CopyCommForSSNList"";
          _amount : Uint128 0;
          comm_for_ssn_list: comm_for_ssn_list}
        (* CopyDelegSwapRequest(deleg_swap_request_list: (List (Pair ByStr20 ByStr20))) *)
      | CopyDelegSwapRequest deleg_swap_request_list =>
        {_recipient : call";
"eeContract;
          _tag : ""CopyDelegSwapRequest"";
          _amount : Uint128 0;
          deleg_swap_request_list: deleg_swap_request_list}
        (* ChangeCycleRewardsDeleg(input_cycle_rewards_deleg: Uint128) *)
      | ChangeCycleRewardsDeleg input_cycle_rewards_deleg =>
        {_recipient : calleeContract;
          _tag : ""ChangeCycleRewardsDeleg"";
          _amount : Uint128 0;
          input_cycle_rewards_deleg: input_cycle_rewards_deleg}
        (* ChangeVerifierReward(input_verifi";
"er_reward: Uint128) *)
      | ChangeVerifierReward input_verifier_reward =>
        {_recipient : calleeContract;
          _tag : ""ChangeVerifierReward"";
          _amount : Uint128 0;
          input_verifier_reward: input_verifier_reward}
        (* ChangeAvailableWithdrawal(input_available_withdrawal: Uint128) *)
      | ChangeAvailableWithdrawal input_available_withdrawal =>
        {_recipient : calleeContract;
          _tag : ""ChangeAvailableWithdrawal"";
          _amount : Uint128 0;
 ";
"         input_available_withdrawal: input_available_withdrawal}
        (* ChangeCurrentDeleg(input_current_deleg: ByStr20) *)
      | ChangeCurrentDeleg input_current_deleg =>
        {_recipient : calleeContract;
          _tag : ""ChangeCurrentDeleg"";
          _amount : Uint128 0;
          input_current_deleg: input_current_deleg}
        (* ChangeCurrentSSN(input_current_ssn: ByStr20) *)
      | ChangeCurrentSSN input_current_ssn =>
        {_recipient : calleeContract;
          _tag : ""C";
"hangeCurrentSSN"";
          _amount : Uint128 0;
          input_current_ssn: input_current_ssn}
        (* ChangeNewDeleg(input_new_deleg: ByStr20) *)
      | ChangeNewDeleg input_new_deleg =>
        {_recipient : calleeContract;
          _tag : ""ChangeNewDeleg"";
          _amount : Uint128 0;
          input_new_deleg: input_new_deleg}
        (* ChangeVerifier(input_verifier: ByStr20) *)
      | ChangeVerifier input_verifier =>
        {_recipient : calleeContract;
          _tag : ""ChangeV";
"erifier"";
          _amount : Uint128 0;
          input_verifier: input_verifier}
        (* ChangeVerifierReceivingAddr(input_verifier_receiving_addr: ByStr20) *)
      | ChangeVerifierReceivingAddr input_verifier_receiving_addr =>
        {_recipient : calleeContract;
          _tag : ""ChangeVerifierReceivingAddr"";
          _amount : Uint128 0;
          input_verifier_receiving_addr: input_verifier_receiving_addr}
        (* ChangeMinStake(input_minstake: Uint128) *)
      | ChangeMinStake ";
"input_minstake =>
        {_recipient : calleeContract;
          _tag : ""ChangeMinStake"";
          _amount : Uint128 0;
          input_minstake: input_minstake}
        (* ChangeMinDelegStake(input_mindelegstake: Uint128) *)
      | ChangeMinDelegStake input_mindelegstake =>
        {_recipient : calleeContract;
          _tag : ""ChangeMinDelegStake"";
          _amount : Uint128 0;
          input_mindelegstake: input_mindelegstake}
        (* ChangeLastRewardCycle(input_lastrewardcycle: Uint";
"32) *)
      | ChangeLastRewardCycle input_lastrewardcycle =>
        {_recipient : calleeContract;
          _tag : ""ChangeLastRewardCycle"";
          _amount : Uint128 0;
          input_lastrewardcycle: input_lastrewardcycle}
        (* ChangeMaxCommChangeRate(input_maxcommchangerate: Uint128) *)
      | ChangeMaxCommChangeRate input_maxcommchangerate =>
        {_recipient : calleeContract;
          _tag : ""ChangeMaxCommChangeRate"";
          _amount : Uint128 0;
          input_maxcommchan";
"gerate: input_maxcommchangerate}
        (* ChangeMaxCommChangeRate(input_maxcommrate: Uint128) *)
      | ChangeMaxCommRate input_maxcommrate =>
        {_recipient : calleeContract;
          _tag : ""ChangeMaxCommRate"";
          _amount : Uint128 0;
          input_maxcommrate: input_maxcommrate}
        (* ChangeTotalStakeAmount(input_totalstakeamount: Uint128) *)
      | ChangeTotalStakeAmount input_totalstakeamount =>
        {_recipient : calleeContract;
          _tag : ""ChangeTotalStake";
"Amount"";
          _amount : Uint128 0;
          input_totalstakeamount: input_totalstakeamount}
      end
    in
    one_msg msg

(***************************************************)
(*             The contract definition             *)
(*                                                 *)
(* This contract holds funds that can be paid out  *)
(* to arbitrary users, provided that enough people *)
(* in the collection of owners sign off on the     *)
(* payout.                                  ";
"       *)
(*                                                 *)
(* The transaction must be added to the contract   *)
(* before signatures can be collected. Once enough *)
(* signatures are collected, the recipient can ask *)
(* for the transaction to be executed and the      *)
(* money paid out.                                 *)
(*                                                 *)
(* If an owner changes his mind about a            *)
(* transaction, the signature can be revoked until *)
(* t";
"he transaction is executed.                    *)
(*                                                 *)
(* This wallet does not allow adding or removing   *)
(* owners, or changing the number of required      *)
(* signatures. To do any of those things, perform  *)
(* the following steps:                            *)
(*                                                 *)
(* 1. Deploy a new wallet with owners and          *)
(*    required_signatures set to the new values.   *)
(*    MAKE SURE TH";
"AT THE NEW WALLET HAS BEEN       *)
(*    SUCCESFULLY DEPLOYED WITH THE CORRECT        *)
(*    PARAMETERS BEFORE CONTINUING!                *)
(* 2. Invoke the SubmitTransaction transition on   *)
(*    the old wallet with the following            *)
(*    parameters:                                  *)
(*    recipient : The address of the new wallet    *)
(*    amount : The _balance of the old wallet      *)
(*    tag : ""AddFunds""                             *)
(* 3. Have (a sufficient number ";
"of) the owners of  *)
(*    the old contract invoke the SignTransaction  *)
(*    transition on the old wallet. The parameter  *)
(*    transactionId should be set to the Id of the *)
(*    transaction created in step 2.               *)
(* 4. Have one of the owners of the old contract   *)
(*    invoke the ExecuteTransaction transition on  *)
(*    the old contract. This will cause the entire *)
(*    balance of the old contract to be            *)
(*    transferred to the new wallet. Note that";
" no  *)
(*    un-executed transactions will be transferred *)
(*    to the new wallet along with the funds.      *)
(*                                                 *)
(* WARNING: If a sufficient number of owners lose  *)
(* their private keys, or for any other reason are *)
(* unable or unwilling to sign for new             *)
(* transactions, the funds in the wallet will be   *)
(* locked forever. It is therefore a good idea to  *)
(* set required_signatures to a value strictly     *)
(* les";
"s than the number of owners, so that the     *)
(* remaining owners can retrieve the funds should  *)
(* such a scenario occur.                          *)
(*                                                 *)
(* If an owner loses his private key, the          *)
(* remaining owners should move the funds to a new *)
(* wallet (using the workflow described above) to  *)
(* ensure that funds are not locked if another     *)
(* owner loses his private key. The owner who      *)
(* originally lost h";
"is private key can generate a  *)
(* new key, and the corresponding address be added *)
(* to the new wallet, so that the same set of      *)
(* persons own the new wallet.                     *)
(*                                                 *)
(***************************************************)
contract Wallet
(
owners_list         : List ByStr20,
required_signatures : Uint32
)
with
  let len = @list_length ByStr20 in
  let no_of_owners = len owners_list in
  let owners_ok = builtin lt z";
"ero no_of_owners in
  let required_sigs_not_too_low = builtin lt zero required_signatures in
  let required_sigs_too_high = builtin lt no_of_owners required_signatures in
  let required_sigs_not_too_high = negb required_sigs_too_high in
  let required_sigs_ok = andb required_sigs_not_too_high required_sigs_not_too_low in
  let all_ok = andb required_sigs_ok owners_ok in
  (* Building the owners map is expensive, so avoid checking the owners map until *)
  (* everything else has been checked *)
 ";
" match all_ok with
  | True =>
    let owners_map = mk_owners_map owners_list in
    let size_of_owners_map = builtin size owners_map in
    builtin eq size_of_owners_map no_of_owners
  | False =>
    False
  end
=>

(* adr -> True indicates an owner *)
(* adr not in map indicates non-owner *)
(* adr -> False is not used *)
field owners           : Map ByStr20 Bool = mk_owners_map owners_list

field transactionCount : Uint32 = Uint32 0

(* Collected signatures for transactions *)
field signature";
"s       : Map Uint32 (Map ByStr20 Bool) =
  Emp Uint32 (Map ByStr20 Bool)

(* Running count of collected signatures for transactions *)
field signature_counts : Map Uint32 Uint32 =
  Emp Uint32 Uint32

(* Transactions *)
field transactions     : Map Uint32 Transaction =
                           Emp Uint32 Transaction

procedure MakeError (err : Error)
  e = mk_error_event err;
  event e
end

(* Add signature to signature list *)
procedure AddSignature (transactionId : Uint32, signee : ByStr20)";
"
  sig <- exists signatures[transactionId][signee];
  match sig with
  | False =>
    count <- signature_counts[transactionId];
    match count with
    | None =>
      (* 0 signatures *)
      signature_counts[transactionId] := one
    | Some c =>
      new_c = builtin add c one;
      signature_counts[transactionId] := new_c
    end;
    signatures[transactionId][signee] := t;
    e = mk_signed_transaction_event transactionId;
    event e
  | True =>
    (* Already signed *)
    err = AlreadyS";
"igned;
    MakeError err
  end
end

(* Common procedure for all new transactions. *)
(* Check that the sender is owner. Store and sign the transaction. *)
procedure SubmitTransaction (transaction : Transaction)
  sender_is_owner <- exists owners[_sender];
  match sender_is_owner with
  | False =>
    err = NonOwnerCannotSubmit;
    MakeError err
  | True =>
    tc <- transactionCount;
    transactions[tc] := transaction;
    (* Sender implicitly signs *)
    AddSignature tc _sender;
    (* Incre";
"ment transaction counter *)
    tc_new = builtin add tc transaction_inc;
    (* Update transaction count *)
    transactionCount := tc_new;
    (* Create event with transaction Id *)
    e = mk_transaction_added_event tc;
    event e
  end
end

(* Submit a transaction of native tokens for future signoff *)
transition SubmitNativeTransaction (recipient : ByStr20, amount : Uint128, tag : String)
  zero = Uint128 0;
  amount_is_zero = builtin eq amount zero;
  match amount_is_zero with
  | True =>
";
"    (* Illegal transaction *)
    err = InvalidAmount;
    MakeError err
  | False =>
    transaction = NativeTransaction recipient amount tag;
    SubmitTransaction transaction
  end
end

(* Common submit procedure for custom transactions *)
procedure SubmitCustomTransaction (calleeContract : ByStr20, calleeTransaction : CalleeTransaction)
  transaction = CustomTransaction calleeContract calleeTransaction;
  SubmitTransaction transaction
end

(***************************************************";
")
(*               Proxy Transition                  *)
(***************************************************)

(* Submit a new UpgradeTo transaction for future signoff *)
transition SubmitCustomUpgradeToTransaction (calleeContract : ByStr20, newImplementation : ByStr20)
  transaction = UpgradeTo newImplementation;
  SubmitCustomTransaction calleeContract transaction
end

(* Submit a new ChangeProxyAdmin transaction for future signoff *)
transition SubmitCustomChangeProxyAdminTransaction (calleeC";
"ontract : ByStr20, newAdmin : ByStr20)
  transaction = ChangeProxyAdmin newAdmin;
  SubmitCustomTransaction calleeContract transaction
end

(* Submit a new ClaimProxyAdmin transaction for future signoff *)
transition SubmitCustomClaimProxyAdminTransaction (calleeContract : ByStr20)
  transaction = ClaimProxyAdmin;
  SubmitCustomTransaction calleeContract transaction
end

(***************************************************)
(*              gZIL Transitions                   *)
(*****************";
"**********************************)

transition SubmitCustomChangeMinterTransaction (calleeContract : ByStr20, new_minter : ByStr20)
  transaction = ChangeMinter new_minter;
  SubmitCustomTransaction calleeContract transaction
end

(***************************************************)
(*              SSNlist Transitions                *)
(***************************************************)


(***************************************************)
(*            House keeping transition            ";
" *)
(***************************************************)

(* Submit a new pause transaction for future signoff *)
transition SubmitCustomPauseTransaction(calleeContract: ByStr20)
  transaction = Pause;
  SubmitCustomTransaction calleeContract transaction
end

(* Submit a new unpause transaction for future signoff *)
transition SubmitCustomUnpauseTransaction(calleeContract: ByStr20)
  transaction = UnPause;
  SubmitCustomTransaction calleeContract transaction
end

(* Submit a new UpdateAdmin tra";
"nsaction for future signoff *)
transition SubmitCustomUpdateAdminTransaction(calleeContract: ByStr20, new_admin: ByStr20)
  transaction = UpdateAdmin new_admin;
  SubmitCustomTransaction calleeContract transaction
end

(* Submit a new ClaimAdmin transaction for future signoff *)
transition SubmitCustomClaimAdminTransaction(calleeContract: ByStr20)
  transaction = ClaimAdmin;
  SubmitCustomTransaction calleeContract transaction
end

(* Submit a new UpdateVerifier transaction for future signoff *)";
"
transition SubmitCustomUpdateVerifierTransaction(calleeContract: ByStr20, verif: ByStr20)
  transaction = UpdateVerifier verif;
  SubmitCustomTransaction calleeContract transaction
end

(* Submit a new UpdateVerifierRewardAddr transaction for future signoff *)
transition SubmitCustomUpdateVerifierRewardAddrTransaction(calleeContract: ByStr20, addr: ByStr20)
  transaction = UpdateVerifierRewardAddr addr;
  SubmitCustomTransaction calleeContract transaction
end

(* Submit a new ContractStakingPar";
"ameter transaction for future signoff *)
transition SubmitCustomUpdateStakingParametersTransaction(calleeContract: ByStr20, min_stake: Uint128, min_deleg_stake: Uint128, max_comm_change_rate: Uint128)
  transaction = UpdateStakingParameters min_stake min_deleg_stake max_comm_change_rate;
  SubmitCustomTransaction calleeContract transaction
end

(* Submit a new ChangeBNumReq transaction for future signoff *)
transition SubmitCustomChangeBNumReqTransaction(calleeContract: ByStr20, input_bnum_req: ";
"Uint128)
  transaction = ChangeBNumReq input_bnum_req;
  SubmitCustomTransaction calleeContract transaction
end

(* Submit a new UpdateGzilAddr transaction for future signoff *)
transition SubmitCustomUpdateGzilAddrTransaction(calleeContract: ByStr20, gzil_addr: ByStr20)
  transaction = UpdateGzilAddr gzil_addr;
  SubmitCustomTransaction calleeContract transaction
end

(* Submit a new AddSSN transaction for future signoff *)
transition SubmitCustomAddSSNTransaction(calleeContract: ByStr20, ssnad";
"dr: ByStr20, name: String, urlraw: String, urlapi: String, comm: Uint128)
  transaction = AddSSN ssnaddr name urlraw urlapi comm;
  SubmitCustomTransaction calleeContract transaction
end

(* Submit a new UpdateSSN transaction for future signoff *)
transition SubmitCustomUpdateSSNTransaction(calleeContract: ByStr20, ssnaddr: ByStr20, new_name: String, new_urlraw: String, new_urlapi: String)
  transaction = UpdateSSN ssnaddr new_name new_urlraw new_urlapi;
  SubmitCustomTransaction calleeContract ";
"transaction
end

(* Submit a new AddSSNAfterUpgrade transaction for future signoff *)
transition SubmitCustomAddSSNAfterUpgradeTransaction(calleeContract: ByStr20, ssnaddr: ByStr20, stake_amt: Uint128, rewards: Uint128, name: String, urlraw: String, urlapi: String, buff_deposit: Uint128, comm: Uint128, comm_rewards: Uint128, rec_addr: ByStr20)
  transaction = AddSSNAfterUpgrade ssnaddr stake_amt rewards name urlraw urlapi buff_deposit comm comm_rewards rec_addr;
  SubmitCustomTransaction calleeC";
"ontract transaction
end

(* Submit a new OptInSSNToConsensusPoolAdminOverride transaction for future signoff *)
transition SubmitCustomOptInSSNToConsensusPoolAdminOverrideTransaction(calleeContract: ByStr20, ssnaddr: ByStr20)
  transaction = OptInSSNToConsensusPoolAdminOverride ssnaddr;
  SubmitCustomTransaction calleeContract transaction
end

(* Submit a new OptOutSSNFromConsensusPoolAdminOverride transaction for future signoff *)
transition SubmitCustomOptOutSSNFromConsensusPoolAdminOverrideTr";
"ansaction(calleeContract: ByStr20, ssnaddr: ByStr20)
  transaction = OptOutSSNFromConsensusPoolAdminOverride ssnaddr;
  SubmitCustomTransaction calleeContract transaction
end

(* Submit a new RemoveFromConsensusPoolAdminOverride transaction for future signoff *)
transition SubmitCustomRemoveFromConsensusPoolAdminOverrideTransaction(calleeContract: ByStr20, ssnaddr: ByStr20)
  transaction = RemoveFromConsensusPoolAdminOverride ssnaddr;
  SubmitCustomTransaction calleeContract transaction
end

(* ";
"Submit a new ChangeMinCommissionRate transaction for future signoff *)
transition SubmitCustomChangeMinCommissionRateTransaction(calleeContract: ByStr20, mincommrate_value: Uint128)
  transaction = ChangeMinCommissionRate mincommrate_value;
  SubmitCustomTransaction calleeContract transaction
end

(* Submit a new AddSSNNonStaking transaction for future signoff *)
transition SubmitCustomAddSSNNonStakingTransaction(calleeContract: ByStr20, ssnaddr: ByStr20, name: String, urlraw: String, urlapi: St";
"ring, comm: Uint128)
  transaction = AddSSNNonStaking ssnaddr name urlraw urlapi comm;
  SubmitCustomTransaction calleeContract transaction
end

(***************************************************)
(*         Contract upgrade transition             *)
(***************************************************)


(* Submit a new UpdateDeleg transaction for future signoff *)
transition SubmitUpdateDelegTransaction(calleeContract: ByStr20, ssnaddr: ByStr20, deleg: ByStr20, stake_amt: Uint128)
  transact";
"ion = UpdateDeleg ssnaddr deleg stake_amt;
  SubmitCustomTransaction calleeContract transaction
end

(* Submit a new PopulateStakeSSNPerCycle transaction for future signoff *)
transition SubmitPopulateStakeSSNPerCycleTransaction(calleeContract: ByStr20, ssn_addr: ByStr20, cycle: Uint32, totalAmt: Uint128, rewards: Uint128)
  transaction = PopulateStakeSSNPerCycle ssn_addr cycle totalAmt rewards;
  SubmitCustomTransaction calleeContract transaction
end

(* Submit a new PopulateLastWithdrawCycleFo";
"rDeleg transaction for future signoff *)
transition SubmitPopulateLastWithdrawCycleForDelegTransaction(calleeContract: ByStr20, deleg_addr: ByStr20, ssn_addr: ByStr20, cycle: Uint32)
  transaction = PopulateLastWithdrawCycleForDeleg deleg_addr ssn_addr cycle;
  SubmitCustomTransaction calleeContract transaction
end

(* Submit a new PopulateLastBufDepositCycleDeleg transaction for future signoff *)
transition SubmitPopulateLastBufDepositCycleDelegTransaction(calleeContract: ByStr20, deleg_addr: B";
"yStr20, ssn_addr: ByStr20, cycle: Uint32)
  transaction = PopulateLastBufDepositCycleDeleg deleg_addr ssn_addr cycle;
  SubmitCustomTransaction calleeContract transaction
end

(* Submit a new PopulateBuffDeposit transaction for future signoff *)
transition SubmitPopulateBuffDepositTransaction(calleeContract: ByStr20, deleg_addr: ByStr20, ssn_addr: ByStr20, cycle: Uint32, amt: Uint128)
  transaction = PopulateBuffDeposit deleg_addr ssn_addr cycle amt;
  SubmitCustomTransaction calleeContract tran";
"saction
end

(* Submit a new PopulateDirectDeposit transaction for future signoff *)
transition SubmitPopulateDirectDepositTransaction(calleeContract: ByStr20, deleg_addr: ByStr20, ssn_addr: ByStr20, cycle: Uint32, amt: Uint128)
  transaction = PopulateDirectDeposit deleg_addr ssn_addr cycle amt;
  SubmitCustomTransaction calleeContract transaction
end

(* Submit a new PopulateDepositAmtDeleg transaction for future signoff *)
transition SubmitPopulateDepositAmtDelegTransaction(calleeContract: By";
"Str20, deleg_addr: ByStr20, ssn_addr: ByStr20, amt: Uint128)
  transaction = PopulateDepositAmtDeleg deleg_addr ssn_addr amt;
  SubmitCustomTransaction calleeContract transaction
end

(* Submit a new PopulateDelegStakePerCycle transaction for future signoff *)
transition SubmitPopulateDelegStakePerCycleTransaction(calleeContract: ByStr20, deleg_addr: ByStr20, ssn_addr: ByStr20, cycle: Uint32, amt: Uint128)
  transaction = PopulateDelegStakePerCycle deleg_addr ssn_addr cycle amt;
  SubmitCustomTr";
"ansaction calleeContract transaction
end

(* Submit a new PopulateLastRewardCycle transaction for future signoff *)
transition SubmitPopulateLastRewardCycleTransaction(calleeContract: ByStr20, cycle: Uint32)
  transaction = PopulateLastRewardCycle cycle;
  SubmitCustomTransaction calleeContract transaction
end

(* Submit a new PopulateCommForSSN transaction for future signoff *)
transition SubmitPopulateCommForSSNTransaction(calleeContract: ByStr20, ssn_addr: ByStr20, cycle: Uint32, comm: Uint12";
"8)
  transaction = PopulateCommForSSN ssn_addr cycle comm;
  SubmitCustomTransaction calleeContract transaction
end

(* Submit a new PopulateTotalStakeAmt transaction for future signoff *)
transition SubmitPopulateTotalStakeAmtTransaction(calleeContract: ByStr20, amt: Uint128)
  transaction = PopulateTotalStakeAmt amt;
  SubmitCustomTransaction calleeContract transaction
end

(* Submit a new PopulatePendingWithdrawal transaction for future signoff *)
transition SubmitPopulatePendingWithdrawalTra";
"nsaction(calleeContract: ByStr20, ssn_addr: ByStr20, block_number: BNum, stake: Uint128)
  transaction = PopulatePendingWithdrawal ssn_addr block_number stake;
  SubmitCustomTransaction calleeContract transaction
end

(* Submit a new DrainContractBalance transaction for future signoff *)
transition SubmitCustomDrainContractBalanceTransaction(calleeContract : ByStr20, amt: Uint128)
  transaction = DrainContractBalance amt;
  SubmitCustomTransaction calleeContract transaction
end

(***************";
"************************************)
(*         Contract cloning transitions            *)
(***************************************************)

(* Submit a new CopySSNDelegAmt transaction for future signoff *)
transition SubmitCustomCopySSNDelegAmtTransaction(calleeContract : ByStr20,
  ssn: ByStr20,
  keys: List (Pair ByStr20 Uint128))

  transaction = CopySSNDelegAmt ssn keys;
  SubmitCustomTransaction calleeContract transaction
end

(* Submit a new MigrateStakeSSNPerCycle transaction for f";
"uture signoff *)
transition SubmitCustomMigrateStakeSSNPerCycleTransaction(calleeContract : ByStr20,
  ssn: ByStr20,
  keys: List (Pair Uint32 (Pair Uint128 Uint128)))

  transaction = MigrateStakeSSNPerCycle ssn keys;
  SubmitCustomTransaction calleeContract transaction
end

(* Submit a new CopyBuffDepositDeleg transaction for future signoff *)
transition SubmitCustomCopyBuffDepositDelegTransaction(calleeContract : ByStr20,
  deleg: ByStr20,
  keys: List (Pair ByStr20 (List (Pair Uint32 Uint128";
"))))

  transaction = CopyBuffDepositDeleg deleg keys;
  SubmitCustomTransaction calleeContract transaction
end

(* Submit a new CopyLastBufDepositCycleDelegList transaction for future signoff *)
transition SubmitCustomCopyLastBufDepositCycleDelegListTransaction(calleeContract : ByStr20,
  last_buf_deposit_cycle_deleg_list: (List (Pair ByStr20 (List (Pair ByStr20 Uint32)))))

  transaction = CopyLastBufDepositCycleDelegList last_buf_deposit_cycle_deleg_list;
  SubmitCustomTransaction calleeContr";
"act transaction
end

(* Submit a new CopyLastWithdrawCycleDelegList transaction for future signoff *)
transition SubmitCustomCopyLastWithdrawCycleDelegListTransaction(calleeContract : ByStr20,
  last_withdraw_cycle_deleg_list: (List (Pair ByStr20 (List (Pair ByStr20 Uint32)))))

  transaction = CopyLastWithdrawCycleDelegList last_withdraw_cycle_deleg_list;
  SubmitCustomTransaction calleeContract transaction
end

(* Submit a new CopyDelegStakePerCycleList transaction for future signoff *)
transi";
"tion SubmitCustomCopyDelegStakePerCycleListTransaction(calleeContract : ByStr20,
  deleg_stake_per_cycle_list: (List (Pair ByStr20 (List (Pair ByStr20 (List (Pair Uint32 Uint128)))))))

  transaction = CopyDelegStakePerCycleList deleg_stake_per_cycle_list;
  SubmitCustomTransaction calleeContract transaction
end

(* Submit a new CopyDirectDepositDelegList transaction for future signoff *)
transition SubmitCustomCopyDirectDepositDelegListTransaction(calleeContract : ByStr20,
  direct_deposit_dele";
"g_list: (List (Pair ByStr20 (List (Pair ByStr20 (List (Pair Uint32 Uint128)))))))

  transaction = CopyDirectDepositDelegList direct_deposit_deleg_list;
  SubmitCustomTransaction calleeContract transaction
end

(* Submit a new CopyBuffDepositDelegList transaction for future signoff *)
transition SubmitCustomCopyBuffDepositDelegListTransaction(calleeContract : ByStr20,
  buff_deposit_deleg_list: (List (Pair ByStr20 (List (Pair ByStr20 (List (Pair Uint32 Uint128)))))))

  transaction = CopyBuffDep";
"ositDelegList buff_deposit_deleg_list;
  SubmitCustomTransaction calleeContract transaction
end

(* Submit a new CopyDepositAmtDelegList transaction for future signoff *)
transition SubmitCustomCopyDepositAmtDelegListTransaction(calleeContract : ByStr20,
  deposit_amt_deleg_list: (List (Pair ByStr20 (List (Pair ByStr20 Uint128)))))

  transaction = CopyDepositAmtDelegList deposit_amt_deleg_list;
  SubmitCustomTransaction calleeContract transaction
end

(* Submit a new CopyWithDrawalPendingList t";
"ransaction for future signoff *)
transition SubmitCustomCopyWithDrawalPendingListTransaction(calleeContract : ByStr20,
  withdrawal_pending_list: (List (Pair ByStr20 (List (Pair BNum Uint128)))))

  transaction = CopyWithDrawalPendingList withdrawal_pending_list;
  SubmitCustomTransaction calleeContract transaction
end

(* Submit a new CopyCommForSSNList transaction for future signoff *)
transition SubmitCustomCopyCommForSSNListTransaction(calleeContract : ByStr20,
  comm_for_ssn_list: (List (Pa";
"ir ByStr20 (List (Pair Uint32 Uint128)))))

  transaction = CopyCommForSSNList comm_for_ssn_list;
  SubmitCustomTransaction calleeContract transaction
end

(* Submit a new CopyDelegSwapRequest transaction for future signoff *)
transition SubmitCustomCopyDelegSwapRequestTransaction(calleeContract : ByStr20,
  deleg_swap_request_list: (List (Pair ByStr20 ByStr20)))

  transaction = CopyDelegSwapRequest deleg_swap_request_list;
  SubmitCustomTransaction calleeContract transaction
end

(* Submit a n";
"ew ChangeCycleRewardsDeleg transaction for future signoff *)
transition SubmitCustomChangeCycleRewardsDelegTransaction(calleeContract : ByStr20,
  input_cycle_rewards_deleg: Uint128)

  transaction = ChangeCycleRewardsDeleg input_cycle_rewards_deleg;
  SubmitCustomTransaction calleeContract transaction
end

(* Submit a new ChangeVerifierReward transaction for future signoff *)
transition SubmitCustomChangeVerifierRewardTransaction(calleeContract : ByStr20,
  input_verifier_reward: Uint128)

  tr";
"ansaction = ChangeVerifierReward input_verifier_reward;
  SubmitCustomTransaction calleeContract transaction
end

(* Submit a new ChangeAvailableWithdrawal transaction for future signoff *)
transition SubmitCustomChangeAvailableWithdrawalTransaction(calleeContract : ByStr20,
  input_available_withdrawal: Uint128)

  transaction = ChangeAvailableWithdrawal input_available_withdrawal;
  SubmitCustomTransaction calleeContract transaction
end

(* Submit a new ChangeCurrentDeleg transaction for futur";
"e signoff *)
transition SubmitCustomChangeCurrentDelegTransaction(calleeContract : ByStr20,
  input_current_deleg: ByStr20)

  transaction = ChangeCurrentDeleg input_current_deleg;
  SubmitCustomTransaction calleeContract transaction
end

(* Submit a new ChangeCurrentSSN transaction for future signoff *)
transition SubmitCustomChangeCurrentSSNTransaction(calleeContract : ByStr20,
  input_current_ssn: ByStr20)

  transaction = ChangeCurrentSSN input_current_ssn;
  SubmitCustomTransaction calleeCo";
"ntract transaction
end

(* Submit a new ChangeNewDeleg transaction for future signoff *)
transition SubmitCustomChangeNewDelegTransaction(calleeContract : ByStr20,
  input_new_deleg: ByStr20)

  transaction = ChangeNewDeleg input_new_deleg;
  SubmitCustomTransaction calleeContract transaction
end

(* Submit a new ChangeVerifier transaction for future signoff *)
transition SubmitCustomChangeVerifierTransaction(calleeContract : ByStr20,
  input_verifier: ByStr20)

  transaction = ChangeVerifier in";
"put_verifier;
  SubmitCustomTransaction calleeContract transaction
end

(* Submit a new ChangeVerifierReceivingAddr transaction for future signoff *)
transition SubmitCustomChangeVerifierReceivingAddrTransaction(calleeContract : ByStr20,
  input_verifier_receiving_addr: ByStr20)

  transaction = ChangeVerifierReceivingAddr input_verifier_receiving_addr;
  SubmitCustomTransaction calleeContract transaction
end

(* Submit a new ChangeMinStake transaction for future signoff *)
transition SubmitCust";
"omChangeMinStakeTransaction(calleeContract : ByStr20,
  input_minstake: Uint128)

  transaction = ChangeMinStake input_minstake;
  SubmitCustomTransaction calleeContract transaction
end

(* Submit a new ChangeMinDelegStake transaction for future signoff *)
transition SubmitCustomChangeMinDelegStakeTransaction(calleeContract : ByStr20,
  input_mindelegstake: Uint128)

  transaction = ChangeMinDelegStake input_mindelegstake;
  SubmitCustomTransaction calleeContract transaction
end

(* Submit a new";
" ChangeLastRewardCycle transaction for future signoff *)
transition SubmitCustomChangeLastRewardCycleTransaction(calleeContract : ByStr20,
  input_lastrewardcycle: Uint32)

  transaction = ChangeLastRewardCycle input_lastrewardcycle;
  SubmitCustomTransaction calleeContract transaction
end

(* Submit a new ChangeMaxCommChangeRate transaction for future signoff *)
transition SubmitCustomChangeMaxCommChangeRateTransaction(calleeContract : ByStr20,
  input_maxcommchangerate: Uint128)

  transaction";
" = ChangeMaxCommChangeRate input_maxcommchangerate;
  SubmitCustomTransaction calleeContract transaction
end

(* Submit a new ChangeMaxCommRate transaction for future signoff *)
transition SubmitCustomChangeChangeMaxCommRateTransaction(calleeContract : ByStr20,
  input_maxcommrate: Uint128)

  transaction = ChangeMaxCommRate input_maxcommrate;
  SubmitCustomTransaction calleeContract transaction
end

(* Submit a new ChangeTotalStakeAmount transaction for future signoff *)
transition SubmitCustom";
"ChangeTotalStakeAmountTransaction(calleeContract : ByStr20,
  input_totalstakeamount: Uint128)

  transaction = ChangeTotalStakeAmount input_totalstakeamount;
  SubmitCustomTransaction calleeContract transaction
end

(* Sign off on an existing transaction *)
transition SignTransaction (transactionId : Uint32)
  (* Only owners are allowed to sign off transactions *)
  sender_is_owner <- exists owners[_sender];
  match sender_is_owner with
  | False =>
    err = NonOwnerCannotSign;
    MakeError e";
"rr
  | True =>
    (* Transaction must have been submitted *)
    transaction <- transactions[transactionId];
    match transaction with
    | None =>
      err = UnknownTransactionId;
      MakeError err
    | Some _ =>
      (* Remaining error cases handled by AddSignature *)
      AddSignature transactionId _sender
    end
  end
end

(* Revoke signature of existing transaction, if it has not yet been executed. *)
transition RevokeSignature (transactionId : Uint32)
  sig <- exists signatures[t";
"ransactionId][_sender];
  match sig with
  | False =>
    err = NotAlreadySigned;
    MakeError err
  | True =>
    count <- signature_counts[transactionId];
    match count with
    | None =>
      err = IncorrectSignatureCount;
      MakeError err
    | Some c =>
      c_is_zero = builtin eq c zero;
      match c_is_zero with
      | True =>
        err = IncorrectSignatureCount;
        MakeError err
      | False =>
        new_c = builtin sub c one;
        signature_counts[transactionId] :";
"= new_c;
        delete signatures[transactionId][_sender];
        e = mk_signature_revoked_event transactionId;
        event e
      end
    end
  end
end

(* Delete transaction and signatures *)
procedure DeleteTransaction (transactionId : Uint32)
  delete transactions[transactionId];
  delete signatures[transactionId];
  delete signature_counts[transactionId]
end

(* Execute native token transaction. *)
(* Checks permission to execute, and checks for sufficient balance. *)
(* Assumes the tr";
"ansaction has been signed off by enough owners. *)
procedure ExecuteNativeTransaction (recipient : ByStr20, amount : Uint128, tag : String)
  (* Only the recipient or an owner can execute the transaction *)
  recipient_is_sender = builtin eq recipient _sender;
  sender_is_owner <- exists owners[_sender];
  sender_may_execute = orb recipient_is_sender sender_is_owner;
  match sender_may_execute with
  | False =>
    err = SenderMayNotExecute;
    MakeError err
  | True =>
    (* Check for suffici";
"ent funds  *)
    bal <- _balance;
    not_enough_money = builtin lt bal amount;
    match not_enough_money with
    | True =>
      err = InsufficientFunds;
      MakeError err
    | False =>
      (* Transaction approved, and enough money available. *)
      (* Execute transaction *)
      msgs = native_transaction_msg_as_list recipient amount tag;
      send msgs
    end
  end
end

(* Execute custom transaction. *)
(* Checks permission to execute. *)
(* Assumes the transaction has been signed";
" off by enough owners. *)
procedure ExecuteCustomTransaction (calleeContract : ByStr20, calleeTransaction : CalleeTransaction)
  (* Only owners may execute *)
  sender_is_owner <- exists owners[_sender];
  match sender_is_owner with
  | False =>
    err = SenderMayNotExecute;
    MakeError err
  | True =>
    as_msg = custom_transaction_msg_as_list calleeContract calleeTransaction;
    send as_msg
  end
end

(* Execute signed-off transaction *)
transition ExecuteTransaction (transactionId : Uint";
"32)
  transaction_opt <- transactions[transactionId];
  match transaction_opt with
  | None =>
    (* Transaction was not found. *)
    err = UnknownTransactionId;
    MakeError err
  | Some transaction =>
    sig_count_opt <- signature_counts[transactionId];
    match sig_count_opt with
    | None =>
      (* Signature count not found, even though the transaction exists.*)
      err = NoSignatureListFound;
      MakeError err
    | Some sig_count =>
      not_enough_signatures = builtin lt sig_";
"count required_signatures;
      match not_enough_signatures with
      | True =>
        err = NotEnoughSignatures;
        MakeError err
      | False =>
        match transaction with
        | NativeTransaction recipient amount tag =>
          ExecuteNativeTransaction recipient amount tag
        | CustomTransaction calleeContract calleeTransaction =>
          ExecuteCustomTransaction calleeContract calleeTransaction
        end;
        (* Remove transaction and signatures. *)
        (* ";
"Note: The transaction may have failed, but without a callback *)
        (* we have no way of detecting whether it did *)
        DeleteTransaction transactionId
      end
    end
  end
end

(* Add native funds to wallet *)
transition AddFunds ()
  accept;
  e = { _eventname: ""FundsAdded""; sender: _sender; amount : _amount};
  event e
end"]%string.

Local Definition src_ssnlist : list string := ["scilla_version 0

import ListUtils IntUtils PairUtils

library SSNList

type Ssn =
| Ssn of Bool Uint128 Uint128 String String String Uint128 Uint128 Uint128 ByStr20

type SsnStakeRewardShare = 
| SsnStakeRewardShare of ByStr20 Uint128 Uint128


type SSNCycleInfo =
| SSNCycleInfo of Uint128 Uint128


type TmpArg =
| TmpArg of ByStr20 ByStr20 Uint32

let one_msg =
  fun (m : Message) =>
    let e = Nil {Message} in
    Cons {Message} m e

let uint128_one =  Uint128 1
let uint128_zero = Uint128 0
";
"let uint128_10_power_7 = Uint128 10000000
let uint128_10_power_9 = Uint128 1000000000
let uint128_100 = Uint128 100

let uint32_one = Uint32 1
let uint32_zero = Uint32 0

let option_value =
  tfun 'A =>
  fun (default: 'A) =>
  fun (opt_val: Option 'A) =>
    match opt_val with
    | Some v => v
    | None => default
    end

let option_map_uint128_uint128_value =
  let f = @option_value (Map Uint128 Uint128) in
  let emt = Emp Uint128 Uint128 in
  f emt

let option_uint128_value =
  let f = @op";
"tion_value Uint128 in
  f uint128_zero
  
let option_uint32_value =
  let f = @option_value Uint32 in
  f uint32_zero

let sub_one_to_zero =
  fun (x: Uint32) =>
  let less_than_one = builtin lt x uint32_one in
  match less_than_one with
  | True =>
    uint32_zero
  | False =>
    let res = builtin sub x uint32_one in
    res
  end

let option_add =
  fun (x_opt: Option Uint128) =>
  fun (y_opt: Option Uint128) =>
    match x_opt with
    | Some x =>
      let y = option_uint128_value y_opt in
";
"      let res = builtin add x y in
      Some {Uint128} res
    | None => y_opt
    end

let change_rate =
  fun (old: Uint128) =>
  fun (new: Uint128) =>
    let a = builtin lt old new in
    match a with
    | True =>
      builtin sub new old
    | False =>
      builtin sub old new
    end

let iota : Uint32 -> Uint32 -> List Uint32 =
  fun (m : Uint32) => fun (n : Uint32) =>
    let m_lt_n = builtin lt m n in
    match m_lt_n with
    | True =>
        let delta = builtin sub n m in
       ";
" let delta_nat = builtin to_nat delta in
        let nil = Nil {Uint32} in
        let acc_init = Pair {(List Uint32) Uint32} nil n in
        let one = Uint32 1 in
        let step = fun (xs_n : Pair (List Uint32) Uint32) => fun (ignore : Nat) =>
          match xs_n with
          | Pair xs n =>
              let new_n = builtin sub n one in
              let new_xs = Cons {Uint32} new_n xs in
              Pair {(List Uint32) Uint32} new_xs new_n
          end in
        let fold = @nat_fold ";
"(Pair (List Uint32) Uint32) in
        let xs_m = fold step acc_init delta_nat in
        match xs_m with
        | Pair xs m => xs
        end
    | False => Nil {Uint32}
    end


let uint128_to_uint256 : Uint128 -> Uint256 =
  fun (x : Uint128) =>
    let ox256 = builtin to_uint256 x in
      match ox256 with
      | None =>
        (* this never happens, hence we throw a division by zero exception just in case *)
        let zero = Uint256 0 in
        builtin div zero zero
      | Some x256";
" => x256
      end

let muldiv : Uint128 -> Uint128 -> Uint128 -> Uint128 =
    fun (x : Uint128) =>
    fun (y : Uint128) =>
    fun (z : Uint128) =>
      let x256 = uint128_to_uint256 x in
      let y256 = uint128_to_uint256 y in
      let z256 = uint128_to_uint256 z in
      let x_mul_y256 = builtin mul x256 y256 in
      let res256 = builtin div x_mul_y256 z256 in
      let ores128 = builtin to_uint128 res256 in
      match ores128 with
      | None =>
        (* this must never happen, hen";
"ce we throw an integer overflow exception *)
        let max_uint128 = Uint128 340282366920938463463374607431768211455 in
        let fourtytwo128 = Uint128 42 in
        builtin mul max_uint128 fourtytwo128
      | Some res128 =>
        res128
      end

let map_to_stake_rewards = 
  fun (total_stake: Uint128) =>
  fun (element: Pair ByStr20 Uint128) =>
    match element with
    | Pair ssnaddr cycle_reward => SsnStakeRewardShare ssnaddr cycle_reward total_stake 
    end

let is_ssn_cycle_map_";
"empty =
  fun(m : Map ByStr20 Uint32) =>
    let map_size = builtin size m in
    builtin eq map_size uint32_zero

let is_ssn_deposit_map_empty =
  fun(m : Map ByStr20 Uint128) =>
    let map_size = builtin size m in
    builtin eq map_size uint32_zero

let is_block_deposit_map_empty =
  fun(m : Map BNum Uint128) =>
    let map_size = builtin size m in
    builtin eq map_size uint32_zero

let is_ssn_cycle_deposit_map_empty =
  fun(m : Map ByStr20 (Map Uint32 Uint128)) =>
    let map_size = built";
"in size m in
    builtin eq map_size uint32_zero

let is_cycle_deposit_map_empty =
  fun(m : Map Uint32 Uint128) =>
    let map_size = builtin size m in
    builtin eq map_size uint32_zero

let bool_active = True
let bool_inactive = False
let addfunds_tag = ""AddFunds""

let reset_addr = 0x0000000000000000000000000000000000000000

type Error =
  | ContractFrozenFailure
  | VerifierValidationFailed
  | AdminValidationFailed
  | StagingAdminNotExist
  | StagingAdminValidationFailed
  | ProxyValidati";
"onFailed
  | DelegDoesNotExistAtSSN
  | DelegHasBufferedDeposit
  | ChangeCommError
  | SSNNotExist
  | SSNAlreadyExist
  | DelegHasUnwithdrawRewards
  | DelegHasNoSufficientAmt
  | SSNNoComm
  | DelegStakeNotEnough
  | ExceedMaxChangeRate
  | ExceedMaxCommRate
  | InvalidTotalAmt
  | VerifierNotSet
  | VerifierRecvAddrNotSet
  | ReDelegInvalidSSNAddr
  | AvailableRewardsError
  | InvalidSwapAddr
  | SwapAddrValidationFailed
  | SwapAddrAlreadyExistsAsRequest

let make_error =
  fun (result: Err";
"or) =>
    let result_code =
      match result with
      | ContractFrozenFailure => Int32 -1
      | VerifierValidationFailed => Int32 -2
      | AdminValidationFailed => Int32 -3
      | StagingAdminNotExist => Int32 -4
      | StagingAdminValidationFailed => Int32 -5
      | ProxyValidationFailed => Int32 -6
      | DelegDoesNotExistAtSSN => Int32 -7
      | DelegHasBufferedDeposit => Int32 -8
      | ChangeCommError => Int32 -9
      | SSNNotExist => Int32 -10
      | SSNAlreadyExist => Int";
"32 -11
      | DelegHasUnwithdrawRewards => Int32 -12
      | DelegHasNoSufficientAmt => Int32 -13
      | SSNNoComm => Int32 -14
      | DelegStakeNotEnough => Int32 -15
      | ExceedMaxChangeRate => Int32 -16
      | ExceedMaxCommRate => Int32 -17
      | InvalidTotalAmt => Int32 -18
      | VerifierNotSet => Int32 -19
      | VerifierRecvAddrNotSet => Int32 -20
      | ReDelegInvalidSSNAddr => Int32 -21
      | AvailableRewardsError => Int32 -22
      | InvalidSwapAddr => Int32 -23
      | S";
"wapAddrValidationFailed => Int32 -24
      | SwapAddrAlreadyExistsAsRequest => Int32 -25
      end
    in
    { _exception: ""Error""; code: result_code }

let list_map_to_pair_with_constant : forall 'A. forall 'B. List 'A -> 'B -> List (Pair 'A 'B) =
  tfun 'A =>
  tfun 'B => 
  fun (list : List 'A) =>
  fun (const : 'B) =>
    let f = fun (key : 'A) => Pair {'A 'B} key const in
    let mapper = @list_map 'A (Pair 'A 'B) in
    mapper f list
    
contract SSNList(
  init_admin: ByStr20,
  init_pr";
"oxy_address: ByStr20,
  init_gzil_address: ByStr20
)

field ssnlist: Map ByStr20 Ssn = Emp ByStr20 Ssn

field comm_for_ssn: Map ByStr20 (Map Uint32 Uint128) = Emp ByStr20 (Map Uint32 Uint128)

field deposit_amt_deleg: Map ByStr20 (Map ByStr20 Uint128) = Emp ByStr20 (Map ByStr20 Uint128)

field ssn_deleg_amt: Map ByStr20 (Map ByStr20 Uint128) = Emp ByStr20 (Map ByStr20 Uint128)

field buff_deposit_deleg: Map ByStr20 (Map ByStr20 (Map Uint32 Uint128)) = Emp ByStr20 (Map ByStr20 (Map Uint32 Uint128";
"))

field direct_deposit_deleg: Map ByStr20 (Map ByStr20 (Map Uint32 Uint128)) = Emp ByStr20 (Map ByStr20 (Map Uint32 Uint128))

field last_withdraw_cycle_deleg: Map ByStr20 (Map ByStr20 Uint32) = Emp ByStr20 (Map ByStr20 Uint32)

field last_buf_deposit_cycle_deleg: Map ByStr20 (Map ByStr20 Uint32) = Emp ByStr20 (Map ByStr20 Uint32)

field stake_ssn_per_cycle: Map ByStr20 (Map Uint32 SSNCycleInfo) = Emp ByStr20 (Map Uint32 SSNCycleInfo)

field deleg_stake_per_cycle: Map ByStr20 (Map ByStr20 (Map";
" Uint32 Uint128)) = Emp ByStr20 (Map ByStr20 (Map Uint32 Uint128))

field withdrawal_pending: Map ByStr20 (Map BNum Uint128) = Emp ByStr20 (Map BNum Uint128)

field deleg_swap_request: Map ByStr20 ByStr20 = Emp ByStr20 ByStr20

field bnum_req: Uint128 = Uint128 35000

field cycle_rewards_deleg: Uint128 = uint128_zero

field verifier_reward: Uint128 = uint128_zero

field available_withdrawal: Uint128 = uint128_zero

field current_deleg: Option ByStr20 = None {ByStr20}

field current_ssn: Option B";
"yStr20 = None {ByStr20}

field new_deleg: Option ByStr20 = None {ByStr20}

field verifier: Option ByStr20 = None {ByStr20}

field verifier_receiving_addr: Option ByStr20 = None {ByStr20}

field minstake: Uint128 = Uint128 10000000000000000000

field mindelegstake: Uint128 = Uint128 10000000000000

field contractadmin: ByStr20  = init_admin
field stagingcontractadmin: Option ByStr20 = None {ByStr20}
field gziladdr: ByStr20 = init_gzil_address
field lastrewardcycle: Uint32 = uint32_one
field pause";
"d: Bool = True

field maxcommchangerate: Uint128 = uint128_one

field maxcommrate: Uint128 = Uint128 1000000000
field totalstakeamount: Uint128 = uint128_zero


procedure CleanBuffDepositDelegAddr(deleg: ByStr20)
  buff_deposit_deleg_map <- buff_deposit_deleg[deleg];
  match buff_deposit_deleg_map with
  | Some buff_deposit_deleg_entry =>
    is_map_empty = is_ssn_cycle_deposit_map_empty buff_deposit_deleg_entry;
    match is_map_empty with
    | True => (* empty map *)
      delete buff_deposit";
"_deleg[deleg]
    | False => (* contains other records *)
    end
  | None => (* nothing to delete *)
  end
end

procedure CleanBuffDepositSSNAddr(deleg_ssn_pair: Pair ByStr20 ByStr20)
  match deleg_ssn_pair with
  | Pair deleg ssn =>
    inner_map <- buff_deposit_deleg[deleg][ssn];
    match inner_map with
    | Some inner_entry =>
      is_map_empty = is_cycle_deposit_map_empty inner_entry;
      match is_map_empty with
      | True => (* empty map *)
        delete buff_deposit_deleg[deleg][s";
"sn]
      | False => (* contains other records *)
      end
    | None => (* nothing to delete *)
    end
  end
end

procedure CleanDirectDepositSSNAddr(deleg_ssn_pair: Pair ByStr20 ByStr20)
  match deleg_ssn_pair with
  | Pair deleg ssn =>
    inner_map <- direct_deposit_deleg[deleg][ssn];
    match inner_map with
    | Some inner_entry =>
      is_map_empty = is_cycle_deposit_map_empty inner_entry;
      match is_map_empty with
      | True => (* empty map *)
        delete direct_deposit_dele";
"g[deleg][ssn]
      | False => (* contains other records *)
      end
    | None => (* nothing to delete *)
    end
  end
end

procedure CleanDirectDepositDelegAddr(deleg: ByStr20)
  direct_deposit_deleg_map <- direct_deposit_deleg[deleg];
  match direct_deposit_deleg_map with
  | Some direct_deposit_deleg_entry =>
    is_map_empty = is_ssn_cycle_deposit_map_empty direct_deposit_deleg_entry;
    match is_map_empty with
    | True => (* empty map *)
      delete direct_deposit_deleg[deleg]
    | ";
"False => (* contains other records *)
    end
  | None => (* nothing to delete *)
  end
end

procedure CleanDelegStakePerCycleSSNAddr(deleg_ssn_pair: Pair ByStr20 ByStr20)
  match deleg_ssn_pair with
  | Pair deleg ssn =>
    inner_map <- deleg_stake_per_cycle[deleg][ssn];
    match inner_map with
    | Some inner_entry =>
      is_map_empty = is_cycle_deposit_map_empty inner_entry;
      match is_map_empty with
      | True => (* empty map *)
        delete deleg_stake_per_cycle[deleg][ssn]
   ";
"   | False => (* contains other records *)
      end
    | None => (* nothing to delete *)
    end
  end
end

procedure CleanDelegStakePerCycleDelegAddr(deleg: ByStr20)
  deleg_stake_per_cycle_map <- deleg_stake_per_cycle[deleg];
  match deleg_stake_per_cycle_map with
  | Some deleg_stake_per_cycle_entry =>
    is_map_empty = is_ssn_cycle_deposit_map_empty deleg_stake_per_cycle_entry;
    match is_map_empty with
    | True => (* empty map *)
      delete deleg_stake_per_cycle[deleg]
    | False ";
"=> (* contains other records *)
    end
  | None => (* nothing to delete *)
  end
end

procedure CleanDepositAmtDelegAddr(deleg: ByStr20)
  ssn_deposit_map <- deposit_amt_deleg[deleg];
  match ssn_deposit_map with
  | Some ssn_deposit_entry =>
    is_map_empty = is_ssn_deposit_map_empty ssn_deposit_entry;
    match is_map_empty with
    | True => (* empty map *)
      delete deposit_amt_deleg[deleg]
    | False => (* contains other records *)
    end
  | None => (* nothing to delete *)
  end
end";
"

procedure CleanLastWithdrawCycleDelegAddr(deleg: ByStr20)
  ssn_cycle_map <- last_withdraw_cycle_deleg[deleg];
  match ssn_cycle_map with
  | Some ssn_cycle_entry =>
    is_map_empty = is_ssn_cycle_map_empty ssn_cycle_entry;
    match is_map_empty with
    | True => (* empty map *)
      delete last_withdraw_cycle_deleg[deleg]
    | False => (* contains other records *)
    end
  | None => (* nothing to delete *)
  end
end

procedure CleanLastBuffDepositCycleDelegAddr(deleg: ByStr20)
  ssn_cyc";
"le_map <- last_buf_deposit_cycle_deleg[deleg];
  match ssn_cycle_map with
  | Some ssn_cycle_entry =>
    is_map_empty = is_ssn_cycle_map_empty ssn_cycle_entry;
    match is_map_empty with
    | True => (* empty map *)
      delete last_buf_deposit_cycle_deleg[deleg]
    | False => (* contains other records *)
    end
  | None => (* nothing to delete *)
  end
end

procedure CleanPendingWithdrawalDelegAddr(deleg: ByStr20)
  block_deposit_map <- withdrawal_pending[deleg];
  match block_deposit_map";
" with
  | Some block_deposit_entry =>
    is_map_empty = is_block_deposit_map_empty block_deposit_entry;
    match is_map_empty with
    | True => (* empty map *)
      delete withdrawal_pending[deleg]
    | False => (* contains other records *)
    end
  | None => (* nothing to delete *)
  end
end

procedure DeleteBuffDeposit(deleg: ByStr20, ssnaddr: ByStr20, cycle: Uint32)
  delete buff_deposit_deleg[deleg][ssnaddr][cycle];
  deleg_ssn_pair = Pair {ByStr20 ByStr20} deleg ssnaddr;
  CleanBuffDe";
"positSSNAddr deleg_ssn_pair;
  CleanBuffDepositDelegAddr deleg
end

procedure DeleteDirectDeposit(deleg: ByStr20, ssnaddr: ByStr20, cycle: Uint32)
  delete direct_deposit_deleg[deleg][ssnaddr][cycle];
  deleg_ssn_pair = Pair {ByStr20 ByStr20} deleg ssnaddr;
  CleanDirectDepositSSNAddr deleg_ssn_pair;
  CleanDirectDepositDelegAddr deleg
end

procedure DeletePendingWithdrawal(deleg: ByStr20, withdraw_number: BNum)
  delete withdrawal_pending[deleg][withdraw_number];
  CleanPendingWithdrawalDelegAd";
"dr deleg
end

procedure TruncateDeleg(deleg: ByStr20, ssnaddr: ByStr20)
  delete deposit_amt_deleg[deleg][ssnaddr];
  delete ssn_deleg_amt[ssnaddr][deleg];
  delete buff_deposit_deleg[deleg][ssnaddr];
  delete direct_deposit_deleg[deleg][ssnaddr];
  delete last_withdraw_cycle_deleg[deleg][ssnaddr];
  delete deleg_stake_per_cycle[deleg][ssnaddr];
  delete last_buf_deposit_cycle_deleg[deleg][ssnaddr];

  (* ssn_deleg_amt won't have empty maps *)
  CleanDepositAmtDelegAddr deleg;
  CleanBuffDeposit";
"DelegAddr deleg;
  CleanDirectDepositDelegAddr deleg;
  CleanDelegStakePerCycleDelegAddr deleg;
  CleanLastWithdrawCycleDelegAddr deleg;
  CleanLastBuffDepositCycleDelegAddr deleg
end

procedure ThrowError(err: Error)
  e = make_error err;
  throw e
end

procedure ValidateRate(rate: Uint128)
  max_rate <- maxcommrate;
  validate = uint128_le rate max_rate;
  match validate with
  | True =>
  | False =>
    e = ExceedMaxCommRate;
    ThrowError e
  end
end

procedure ValidateChangeRate(old: Uint1";
"28, new: Uint128)
  maxcommchangerate_l <- maxcommchangerate;
  absolute_change = change_rate old new;
  absolute_change = builtin div absolute_change uint128_10_power_7;
  valid = uint128_le absolute_change maxcommchangerate_l;
  match valid with
  | True =>
  | False =>
    e = ExceedMaxChangeRate;
    ThrowError e
  end
end

procedure IncreaseTotalStakeAmt(amt: Uint128)
  current_amt <- totalstakeamount;
  new_amt = builtin add current_amt amt;
  totalstakeamount := new_amt
end

procedure Dec";
"reaseTotalStakeAmt(amt: Uint128)
  current_amt <- totalstakeamount;
  valid = uint128_le amt current_amt;
  match valid with
  | True =>
    new_amt = builtin sub current_amt amt;
    totalstakeamount := new_amt
  | False =>
    e = InvalidTotalAmt;
    ThrowError e
  end
end

procedure IncreaseTotalStakeAmtOnStatus(amt: Uint128, status: Bool)
  match status with
  | True =>
    e = { _eventname: ""SSNActive""; increase_amt: amt };
    event e;
    IncreaseTotalStakeAmt amt
  | False =>
  end  
en";
"d

procedure DecreaseTotalStakeAmtOnStatus(amt: Uint128, status: Bool)
  match status with
  | True =>
  | False =>
    e = { _eventname: ""SSNInactive""; decreased_amt: amt };
    event e;
    DecreaseTotalStakeAmt amt
  end
end

procedure CallerIsVerifier(initiator: ByStr20)
  verifier_tmp <- verifier;
  match verifier_tmp with
  | Some v =>
    is_verifier = builtin eq initiator v;
    match is_verifier with
    | True =>
    | False =>
      e = VerifierValidationFailed;
      ThrowError e
   ";
" end
  | None =>
    e = VerifierNotSet;
    ThrowError e
  end
end

procedure IsAdmin(initiator: ByStr20)
  contractadmin_tmp <- contractadmin;
  is_admin = builtin eq initiator contractadmin_tmp;
  match is_admin with
  | True  =>
  | False =>
    e = AdminValidationFailed;
    ThrowError e
  end
end

procedure IsProxy()
  is_proxy = builtin eq _sender init_proxy_address;
  match is_proxy with
  | True  =>
  | False =>
    e = ProxyValidationFailed;
    ThrowError e
  end
end

procedure IsNotP";
"aused()
  paused_tmp <- paused;
  match paused_tmp with
  | False =>
  | True  =>
    e = ContractFrozenFailure;
    ThrowError e
  end
end

procedure IsPaused()
  paused_tmp <- paused;
  match paused_tmp with
  | False =>
    e = ContractFrozenFailure;
    ThrowError e
  | True => 
  end
end

procedure TransferFunds(tag: String, amt: Uint128, recipient: ByStr20)
    msg = {_tag: tag; _recipient: recipient; _amount: amt};
    msgs = one_msg msg;
    send msgs
end

procedure CalculateTotalWithdra";
"wal(withdraw: Pair BNum Uint128)
  current_deleg_o <- current_deleg;
  match current_deleg_o with
  | Some deleg =>
    match withdraw with
    | Pair withdraw_number amt =>
      current_bnum <- & BLOCKNUMBER;
      current_bnum_req <- bnum_req;
      bnum = builtin badd withdraw_number current_bnum_req;
      can_withdraw = builtin blt bnum current_bnum;
      match can_withdraw with
      | True =>
          DeletePendingWithdrawal deleg withdraw_number;
          current_amt <- available_wit";
"hdrawal;
          current_amt = builtin add current_amt amt;
          available_withdrawal := current_amt
      | False => 
      end
    end
  | None => (* Won't reach *)
  end
end

procedure AssertCorrectRewards(remaining_rewards: Uint128, ssn_rewards: Uint128)
  validate = uint128_le ssn_rewards remaining_rewards;
  match validate with
  | True =>
  | False =>
    e = AvailableRewardsError;
    ThrowError e
  end
end

procedure UpdateStakeReward(entry: SsnStakeRewardShare)
  lastreward_blk ";
"<- lastrewardcycle;
  match entry with
  | SsnStakeRewardShare ssnaddr cycle_reward total_stake =>
    curval <- ssnlist[ssnaddr];
    match curval with
    | None =>
      e = SSNNotExist;
      ThrowError e
    | Some (Ssn active_status stake_amt rewards name urlraw urlapi buffdeposit comm comm_rewards rec_addr) =>
      match active_status with
      | False =>
        e = { _eventname: ""SSN inactive""; ssn_addr: ssnaddr};
        event e
      | True  =>
        (* To calculate rewards belong";
" to this ssn operator *)
        new_rewards = muldiv stake_amt cycle_reward total_stake;
        current_verifier_reward <- verifier_reward;

        AssertCorrectRewards current_verifier_reward new_rewards;
        new_current_verifier_reward = builtin sub current_verifier_reward new_rewards;
        verifier_reward := new_current_verifier_reward;

        (* To calculate commission *)
        reward_comm_tmp = muldiv new_rewards comm uint128_10_power_9;
        total_reward_comm = builtin add";
" reward_comm_tmp comm_rewards;

        (* To calculate rewards can be distributed to delegators *)
        delegate_reward = builtin sub new_rewards reward_comm_tmp;

        p = SSNCycleInfo stake_amt delegate_reward;
        stake_ssn_per_cycle[ssnaddr][lastreward_blk] := p;

        (* Update ssn info *)
        new_stake_amt = builtin add stake_amt buffdeposit;
        deleg_reward = builtin add delegate_reward rewards;
        ssn = Ssn active_status new_stake_amt deleg_reward name urlraw ";
"urlapi uint128_zero comm total_reward_comm rec_addr;
        ssnlist[ssnaddr] := ssn;
        IncreaseTotalStakeAmt buffdeposit;
        e = { _eventname: ""SSN assign reward""; ssnaddr: ssnaddr; cycle_number: lastreward_blk; delegate_rewards: delegate_reward; comm_rewards:  reward_comm_tmp};
        event e
      end
    end
  end
end

procedure SendDelegRewards(addr: ByStr20, amt: Uint128)
  to_send = builtin eq amt uint128_zero;
  match to_send with
  | True =>
  | False =>
    TransferFunds ad";
"dfunds_tag amt addr;
    e = { _eventname: ""Send deleg rewards""; addr: addr; amt:  amt};
    event e
  end
end

procedure DelegExists(ssnaddr: ByStr20, deleg: ByStr20)
  if_exists <- exists deposit_amt_deleg[deleg][ssnaddr];
  match if_exists with
  | True  =>
  | False =>
    e = DelegDoesNotExistAtSSN;
    ThrowError e
    end
end

procedure FillLastWithdrawCycle(ssnaddr: ByStr20, deleg : ByStr20)
  lwcd_o <- last_withdraw_cycle_deleg[deleg][ssnaddr];
  match lwcd_o with
  | Some lwcd =>
  | N";
"one =>
    lrc <- lastrewardcycle;
    last_withdraw_cycle_deleg[deleg][ssnaddr] := lrc
  end
end

procedure FillInDepositDelegAmt(ssnaddr: ByStr20, deleg: ByStr20, amount: Uint128)
  deposit_amt <- deposit_amt_deleg[deleg][ssnaddr];
  match deposit_amt with
  | Some amt =>
    new_amt = builtin add amt amount;
    deposit_amt_deleg[deleg][ssnaddr] := new_amt;
    ssn_deleg_amt[ssnaddr][deleg] := new_amt
  | None =>
    deposit_amt_deleg[deleg][ssnaddr] := amount;
    ssn_deleg_amt[ssnaddr][dele";
"g] := amount
  end
end

procedure AssertNoRewards(ssnaddr: ByStr20, deleg: ByStr20, total_rewards: Uint128)
  no_total_rewards = builtin eq total_rewards uint128_zero;
  match no_total_rewards with
  | True =>
  | False =>
    lrcd_tmp <- last_withdraw_cycle_deleg[deleg][ssnaddr];
    lrcd = option_uint32_value lrcd_tmp;
    lrc <- lastrewardcycle;
    has_reward = builtin lt lrcd lrc;
    match has_reward with
    | True =>
      offset = builtin sub lrc lrcd;
      offset_only_one = builtin eq";
" offset uint32_one;
      match offset_only_one with
      | True =>
        (* if there is only one cycle ahead, and if it only has buffered deposit, then the rewards *)
        (* could be zero, we should let him go. to identify this case, we need calculate the exact rewards *)
        last_reward_cycle = builtin sub lrc uint32_one;
        last2_reward_cycle = sub_one_to_zero last_reward_cycle;
        cur_opt <- direct_deposit_deleg[deleg][ssnaddr][last_reward_cycle];
        buf_opt <- buff";
"_deposit_deleg[deleg][ssnaddr][last2_reward_cycle];
        comb_opt = option_add cur_opt buf_opt;
        last_amt_o <- deleg_stake_per_cycle[deleg][ssnaddr][last_reward_cycle];
        last_amt = option_uint128_value last_amt_o;
        staking_of_deleg = match comb_opt with
        | Some stake => builtin add last_amt stake
        | None => last_amt
        end;
        no_rewards = builtin eq staking_of_deleg uint128_zero;
        match no_rewards with
        | True =>
        | False =>
 ";
"         e = DelegHasUnwithdrawRewards;
          ThrowError e
        end
      | False =>
        e = DelegHasUnwithdrawRewards;
        ThrowError e
      end
    | False =>
    end
  end
end

procedure AsseertNoBufferedDeposit(ssnaddr: ByStr20, deleg: ByStr20)
  ldcd_o <- last_buf_deposit_cycle_deleg[deleg][ssnaddr];
  ldcd = option_uint32_value ldcd_o;
  lrc <- lastrewardcycle;
  (* in fact, lrc will only more than or equal to ldcd, equal means he has delegated this round and withdrawn this";
" round as well *)
  has_buffered = uint32_le lrc ldcd;
  match has_buffered with
  | True =>
    e = DelegHasBufferedDeposit;
    ThrowError e
  | False =>
  end
end

procedure AssertNoBufferedDepositLessOneCycle(ssnaddr: ByStr20, deleg: ByStr20)
  lrc <- lastrewardcycle;
  last_reward_cycle = builtin sub lrc uint32_one;
  has_buffered <- buff_deposit_deleg[deleg][ssnaddr][last_reward_cycle];
  match has_buffered with
  | Some buff_deposit =>
    e = DelegHasBufferedDeposit;
    ThrowError e
  |";
" None =>
  end
end

procedure IsDelegstakeSufficient(amount: Uint128)
  mindelegstake_l <- mindelegstake;
  suffi =  uint128_le mindelegstake_l amount;
  match suffi with
  | True =>
  | False =>
    e = DelegStakeNotEnough;
    ThrowError e
  end
end

procedure AdjustDeleg(ssnaddr: ByStr20, deleg: ByStr20, total_amount: Uint128, withdraw_amount: Uint128)
  sufficient = uint128_le withdraw_amount total_amount;
  match sufficient with
  | True =>
    need_truncate =  builtin eq withdraw_amount to";
"tal_amount;
    match need_truncate with
    | True =>
      (* Remove all info map recorded for this deleg *)
      TruncateDeleg deleg ssnaddr
    | False =>
      (* Readjust all rest deleg to this cycle *)
      lrc <- lastrewardcycle;
      rest_deleg = builtin sub total_amount withdraw_amount;
      (* rest delegate should also meet mindelegstake *)
      IsDelegstakeSufficient rest_deleg;
      TruncateDeleg deleg ssnaddr;
      (* Refer to transition TruncateDeleg, here we don't use Fill";
"in transition because we *)
      (* know they are all empty, and this can reduce some gasfee *)
      deposit_amt_deleg[deleg][ssnaddr] := rest_deleg;
      ssn_deleg_amt[ssnaddr][deleg] := rest_deleg;
      direct_deposit_deleg[deleg][ssnaddr][lrc] := rest_deleg;
      last_withdraw_cycle_deleg[deleg][ssnaddr] := lrc
    end
  | False =>
    e = DelegHasNoSufficientAmt;
    ThrowError e
  end
end

procedure UnDelegateStakeAmt(initiator: ByStr20, ssn: ByStr20, undeleg_amt: Uint128)
  ssn_o <- s";
"snlist[ssn];
  deleg <- deposit_amt_deleg[initiator][ssn];
  match ssn_o with
  | Some (Ssn active_status stake_amt rewards name urlraw urlapi buffdeposit comm comm_rewards rec_addr) =>
    match deleg with
    | Some amt =>
      AssertNoRewards ssn initiator rewards;
      AsseertNoBufferedDeposit ssn initiator;
      AdjustDeleg ssn initiator amt undeleg_amt;
      (* Illegal withdraw amount could be handled in procedure AdjustDeleg *)
      new_amt = builtin sub stake_amt undeleg_amt;
      ";
"minstake_tmp <- minstake;
      status = uint128_le minstake_tmp new_amt;
      ssn_option_tmp = Ssn status new_amt rewards name urlraw urlapi buffdeposit comm comm_rewards rec_addr;
      ssnlist[ssn] := ssn_option_tmp;
      e = { _eventname: ""Remove delegate from SSN""; ssn_addr: ssn; deleg_address: initiator; amt: undeleg_amt };
      event e;
      match active_status with
      | True =>
        (* If the original status is active, we can substract from totalstakeamt, otherwise dont do so *";
")
        DecreaseTotalStakeAmt undeleg_amt;
        event_decrease = { _eventname: ""DecreaseTotalStakeAmt""; decreased_amt: undeleg_amt };
        event event_decrease;
        (* If ssn becomes inactive, we need to decrease the rest ones as well *)
        DecreaseTotalStakeAmtOnStatus new_amt status
      | False =>
        event_decrease = { _eventname: ""SSNInactiveBefore"" };
        event event_decrease
      end
    | None =>
      e = DelegDoesNotExistAtSSN;
      ThrowError e
    end
  | ";
"None =>
    e = SSNNotExist;
    ThrowError e
  end
end

procedure WithdrawalStakeAmt(initiator: ByStr20, ssn: ByStr20, withdraw_amount: Uint128)
  ssn_o <- ssnlist[ssn];
  deleg <- deposit_amt_deleg[initiator][ssn];
  match ssn_o with
  | Some (Ssn active_status stake_amt rewards name urlraw urlapi buffdeposit comm comm_rewards rec_addr) =>
    match deleg with
    | Some amt =>
      AssertNoRewards ssn initiator rewards;
      AsseertNoBufferedDeposit ssn initiator;
      AdjustDeleg ssn init";
"iator amt withdraw_amount;
      (* Illegal withdraw amount could be handled in procedure AdjustDeleg *)
      new_amt = builtin sub stake_amt withdraw_amount;
      minstake_tmp <- minstake;
      status = uint128_le minstake_tmp new_amt;
      ssn_option_tmp = Ssn status new_amt rewards name urlraw urlapi buffdeposit comm comm_rewards rec_addr;
      ssnlist[ssn] := ssn_option_tmp;
      withdrawal_bnum <- & BLOCKNUMBER;
      withdraw_amt_o <- withdrawal_pending[initiator][withdrawal_bnum];
 ";
"     withdraw_amt_pending = match withdraw_amt_o with
      | Some v => builtin add v withdraw_amount
      | None => withdraw_amount
      end;
      withdrawal_pending[initiator][withdrawal_bnum] := withdraw_amt_pending;
      e = { _eventname: ""Deleg withdraw deposit""; ssn_addr: ssn; deleg_address: initiator; withdraw_amount: withdraw_amount };
      event e;
      match active_status with
      | True =>
        (* If the original status is active, we can substract from totalstakeamt, otherw";
"ise dont do so *)
        DecreaseTotalStakeAmt withdraw_amount;
        event_decrease = { _eventname: ""DecreaseTotalStakeAmt""; decreased_amt: withdraw_amount };
        event event_decrease;
        (* If ssn becomes inactive, we need to decrease the rest as well *)
        DecreaseTotalStakeAmtOnStatus new_amt status
      | False =>
        event_decrease = { _eventname: ""SSNInactiveBefore"" };
        event event_decrease
      end
    | None =>
      e = DelegDoesNotExistAtSSN;
      ThrowE";
"rror e
    end
  | None =>
    e = SSNNotExist;
    ThrowError e
  end
end

procedure IncreaseReward(reward: Uint128)
  exist_reward <- cycle_rewards_deleg;
  new_reward = builtin add exist_reward reward;
  cycle_rewards_deleg := new_reward
end

procedure CalcStakeRewards(tmp_arg: TmpArg)
  match tmp_arg with
  | TmpArg deleg ssn_operator reward_cycle =>
    last_reward_cycle = builtin sub reward_cycle uint32_one;
    last2_reward_cycle = sub_one_to_zero last_reward_cycle;
    cur_opt <- direct_";
"deposit_deleg[deleg][ssn_operator][last_reward_cycle];
    buf_opt <- buff_deposit_deleg[deleg][ssn_operator][last2_reward_cycle];
    comb_opt = option_add cur_opt buf_opt;

    last_amt_o <- deleg_stake_per_cycle[deleg][ssn_operator][last_reward_cycle];
    last_amt = option_uint128_value last_amt_o;
    staking_and_rewards_per_cycle_for_ssn_opt <- stake_ssn_per_cycle[ssn_operator][reward_cycle];

    (* the rewards for this cycle also computed within this procedure, so we no long keep histric";
" data *)
    (* delete empty keys if need to *)
    (* no need to remove deleg_stake_per_cycle empty keys as assigning it with other cycle later *)
    delete deleg_stake_per_cycle[deleg][ssn_operator][last_reward_cycle];
    DeleteDirectDeposit deleg ssn_operator last_reward_cycle;
    DeleteBuffDeposit deleg ssn_operator last2_reward_cycle;

    staking_of_deleg = match comb_opt with
    | Some stake => builtin add last_amt stake
    | None => last_amt
    end;
    deleg_stake_per_cycle[deleg]";
"[ssn_operator][reward_cycle] := staking_of_deleg;
    
    match staking_and_rewards_per_cycle_for_ssn_opt with
    | Some (SSNCycleInfo total_staking total_rewards) =>
      reward = muldiv total_rewards staking_of_deleg total_staking;
      IncreaseReward reward
    | None =>
    end

  end
end

procedure MintCall(recipient: ByStr20, amount: Uint128)
  is_zero = builtin eq amount uint128_zero;
  match is_zero with
  | True =>
  | False =>
    addr <- gziladdr;
    msg_to_gzil = {_tag: ""Mint""; ";
"_recipient: addr; _amount: uint128_zero; 
                  recipient: recipient; amount: amount};
    msgs = one_msg msg_to_gzil;
    send msgs
  end
end

procedure WithdrawalStakeRewards(deleg: ByStr20, ssn_operator: ByStr20)
  last_withdraw_cycle_deleg_m <- last_withdraw_cycle_deleg[deleg][ssn_operator];
  last_withdraw_cycle = option_uint32_value last_withdraw_cycle_deleg_m;
  lrc <- lastrewardcycle;

  m = builtin add last_withdraw_cycle uint32_one;
  n = builtin add lrc uint32_one;
  list_";
"need_compute_rewards = iota m n;
  
  (* Combine deleg and ssn_operator with list_need_compute_rewards *)
  mapper = @list_map Uint32 TmpArg;
  f = fun (cycle: Uint32) => TmpArg deleg ssn_operator cycle;
  combined_args_list = mapper f list_need_compute_rewards;

  (* Calculate rewards *)
  cycle_rewards_deleg := uint128_zero;
  forall combined_args_list CalcStakeRewards;

  (* Send rewards out and mint gzil *)
  reward <- cycle_rewards_deleg;
  SendDelegRewards deleg reward;
  MintCall deleg re";
"ward;

  ssn_o <- ssnlist[ssn_operator];
  match ssn_o with
  | Some (Ssn active_status stake_amt total_rewards name urlraw urlapi buffdeposit comm comm_rewards rec_addr) =>
    rest_rewards = builtin sub total_rewards reward;
    ssn = Ssn active_status stake_amt rest_rewards name urlraw urlapi buffdeposit comm comm_rewards rec_addr;
    ssnlist[ssn_operator] := ssn
  | None => throw
  end;
  e = { _eventname: ""WithdrawalStakeRewards""; rewards: reward};
  event e;
  last_withdraw_cycle_deleg[de";
"leg][ssn_operator] := lrc;
  msg_to_delegator = {_tag : ""WithdrawStakeRewardsSuccessCallBack""; _recipient : deleg; _amount : uint128_zero; 
  ssnaddr : ssn_operator; rewards : reward};
  msg = one_msg msg_to_delegator;
  send msg
end

procedure Delegate(ssnaddr: ByStr20, initiator: ByStr20, amount: Uint128)
  curval <- ssnlist[ssnaddr];
  match curval with
  | None =>
    e = SSNNotExist;
    ThrowError e
  | Some (Ssn active_status stake_amt rewards name urlraw urlapi buffdeposit comm comm_rewa";
"rds rec_addr) =>
    IsDelegstakeSufficient amount;
    lrc <- lastrewardcycle;
    (* The delegated stake can be accepted. *) 
    FillInDepositDelegAmt ssnaddr initiator amount;
    (* If it is the first time delegator delegates to a given SSN, then we need to fill last_withdraw_cycle_deleg with lastrewardcycle *)
    (* otherwise, the rewards calculation will start from cycle 1 which is wrong *)
    FillLastWithdrawCycle ssnaddr initiator;
    (* It is buffered if the SSN is active if not it ";
"is added to the stake_amount. *)
    match active_status with
    | True  =>
      last_buf_deposit_cycle_deleg[initiator][ssnaddr] := lrc;
      new_buff_amt  = builtin add amount buffdeposit;
      (* The SSN is active so add the delegated stake to the buffer *)
      ssn = Ssn bool_active stake_amt rewards name urlraw urlapi new_buff_amt comm comm_rewards rec_addr;
      ssnlist[ssnaddr] := ssn;
      (* record this to buffer deposit for deleg *)
      stake_amt_for_deleg_option  <- buff_depo";
"sit_deleg[initiator][ssnaddr][lrc];
      match stake_amt_for_deleg_option  with
      | Some stake_amt_for_deleg =>
        new_stake_amt_for_deleg = builtin add stake_amt_for_deleg amount;
        buff_deposit_deleg[initiator][ssnaddr][lrc] := new_stake_amt_for_deleg
      | None =>
        buff_deposit_deleg[initiator][ssnaddr][lrc] := amount
      end
    | False =>
      minstake_tmp <- minstake;
      (* The SSN is inactive so add the delegated stake to stake_amount *)
      new_stake_amt ";
" = builtin add amount stake_amt;
      status = uint128_le minstake_tmp new_stake_amt;
      (* The SSN becomes active if the total stake after deposit is greater than the minimum required. *)
      ssn = Ssn status new_stake_amt rewards name urlraw urlapi buffdeposit comm comm_rewards rec_addr;
      ssnlist[ssnaddr] := ssn;
      (* If ssn becomes active, then we need to increase totalstakeamount *)
      IncreaseTotalStakeAmtOnStatus new_stake_amt status;
      (* record this to direct deposi";
"t for deleg *)
      stake_amt_for_deleg_option  <- direct_deposit_deleg[initiator][ssnaddr][lrc];
      match stake_amt_for_deleg_option  with
      | Some stake_amt_for_deleg =>
        new_stake_amt_for_deleg = builtin add stake_amt_for_deleg amount;
        direct_deposit_deleg[initiator][ssnaddr][lrc] := new_stake_amt_for_deleg
      | None =>
        direct_deposit_deleg[initiator][ssnaddr][lrc] := amount
      end
    end
  end  
end



transition Pause(initiator: ByStr20)
  IsProxy;
  Is";
"Admin initiator;
  paused := bool_active
end

transition UnPause(initiator: ByStr20)
  IsProxy;
  IsAdmin initiator;
  paused := bool_inactive
end

transition UpdateAdmin(admin: ByStr20, initiator: ByStr20)
  IsProxy;
  IsAdmin initiator;
  staging_admin = Some {ByStr20} admin;
  stagingcontractadmin := staging_admin
end

transition ClaimAdmin(initiator: ByStr20)
  IsProxy;
  staging_admin <- stagingcontractadmin;
  match staging_admin with
  | Some admin =>
    is_valid = builtin eq initiator a";
"dmin;
    match is_valid with
    | True =>
      contractadmin := admin;
      staging_admin = None {ByStr20};
      stagingcontractadmin := staging_admin;
      e = { _eventname: ""ClaimAdmin""; new_admin: admin };
      event e
    | False =>
      e = StagingAdminValidationFailed;
      ThrowError e
    end
  | None =>
    e = StagingAdminNotExist;
    ThrowError e
  end
end

transition UpdateVerifier(verif: ByStr20, initiator: ByStr20)
  IsProxy;
  IsAdmin initiator;
  newverifier = Some {ByS";
"tr20} verif;
  verifier := newverifier
end

transition UpdateVerifierRewardAddr(addr: ByStr20, initiator: ByStr20)
  IsProxy;
  IsAdmin initiator;
  newAddr = Some {ByStr20} addr;
  verifier_receiving_addr := newAddr
end

transition UpdateStakingParameters(min_stake: Uint128, min_deleg_stake: Uint128, max_comm_change_rate: Uint128, initiator: ByStr20)
  IsProxy;
  IsAdmin initiator;
  minstake := min_stake;
  mindelegstake := min_deleg_stake;
  maxcommchangerate := max_comm_change_rate
end

tran";
"sition ChangeBNumReq(input_bnum_req: Uint128, initiator: ByStr20)
  IsProxy;
  IsAdmin initiator;
  bnum_req := input_bnum_req
end

transition UpdateGzilAddr(gzil_addr: ByStr20, initiator: ByStr20)
  IsProxy;
  IsAdmin initiator;
  gziladdr := gzil_addr
end

transition AddSSN(ssnaddr: ByStr20, name: String, urlraw: String, urlapi: String, comm: Uint128, initiator: ByStr20)
  IsProxy;
  IsAdmin initiator;
  already_exists <- exists ssnlist[ssnaddr];
  match already_exists with
  | True  =>
    e ";
"= SSNAlreadyExist;
    ThrowError e
  | False =>
    ValidateRate comm;
    status = bool_inactive;
    stake_amt = Uint128 0;
    rewards = Uint128 0;
    buff_deposit = Uint128 0;
    comm_rewards = Uint128 0;
    s = Ssn status stake_amt rewards name urlraw urlapi buff_deposit comm comm_rewards ssnaddr;
    ssnlist[ssnaddr] := s;
    lrc <- lastrewardcycle;
    comm_for_ssn[ssnaddr][lrc] := comm;
    e = { _eventname: ""SSN added""; ssn_addr: ssnaddr };
    event e
  end
end

transition UpdateS";
"SN(ssnaddr: ByStr20, new_name: String, new_urlraw: String, new_urlapi: String, initiator: ByStr20)
  IsProxy;
  IsAdmin initiator;
  ssn_o <- ssnlist[ssnaddr];
  match ssn_o with
  | Some (Ssn active_status staking_amt deleg_reward name urlraw urlapi buffdeposit comm comm_rewards rec_addr) =>
    ssn = Ssn active_status staking_amt deleg_reward new_name new_urlraw new_urlapi buffdeposit comm comm_rewards rec_addr;
    ssnlist[ssnaddr] := ssn;
    e = { _eventname: ""UpdateSSN""; ssnaddr: ssnaddr; ";
"new_name: new_name; new_urlraw: new_urlraw; new_urlapi: new_urlapi; initiator: initiator };
    event e
  | None =>
    e = SSNNotExist;
    ThrowError e
  end
end

transition CleanBuffDeposit(deleg_addr_list: List ByStr20, ssn_addr_list: List (Pair ByStr20 ByStr20), initiator: ByStr20)
  IsProxy;
  IsAdmin initiator;
  (* must clean all the inner maps before cleaning the outer maps *)
  forall ssn_addr_list CleanBuffDepositSSNAddr;
  forall deleg_addr_list CleanBuffDepositDelegAddr
end

transit";
"ion CleanDirectDeposit(deleg_addr_list: List ByStr20, ssn_addr_list: List (Pair ByStr20 ByStr20), initiator: ByStr20)
  IsProxy;
  IsAdmin initiator;
  (* must clean all the inner maps before cleaning the outer maps *)
  forall ssn_addr_list CleanDirectDepositSSNAddr;
  forall deleg_addr_list CleanDirectDepositDelegAddr
end

transition CleanDelegStakePerCycle(deleg_addr_list: List ByStr20, ssn_addr_list: List (Pair ByStr20 ByStr20), initiator: ByStr20)
  IsProxy;
  IsAdmin initiator;
  (* must c";
"lean all the inner maps before cleaning the outer maps *)
  forall ssn_addr_list CleanDelegStakePerCycleSSNAddr;
  forall deleg_addr_list CleanDelegStakePerCycleDelegAddr
end

transition CleanDepositAmt(deleg_addr_list: List ByStr20, initiator: ByStr20)
  IsProxy;
  IsAdmin initiator;
  forall deleg_addr_list CleanDepositAmtDelegAddr
end

transition CleanPendingWithdrawal(deleg_addr_list: List ByStr20, initiator: ByStr20)
  IsProxy;
  IsAdmin initiator;
  forall deleg_addr_list CleanPendingWithd";
"rawalDelegAddr
end

transition CleanLastWithdrawCycle(deleg_addr_list: List ByStr20, initiator: ByStr20)
  IsProxy;
  IsAdmin initiator;
  forall deleg_addr_list CleanLastWithdrawCycleDelegAddr
end

transition CleanLastBuffDepositCycle(deleg_addr_list: List ByStr20, initiator: ByStr20)
  IsProxy;
  IsAdmin initiator;
  forall deleg_addr_list CleanLastBuffDepositCycleDelegAddr
end


transition UpdateComm(new_rate: Uint128, initiator: ByStr20)
  IsNotPaused;
  IsProxy;
  curval <- ssnlist[initiato";
"r];
  match curval with
  | Some (Ssn active_status stake_amt rewards name urlraw urlapi buffdeposit comm comm_rewards rec_addr) =>
    lrc <- lastrewardcycle;
    old_comm_option <- comm_for_ssn[initiator][lrc];
    match old_comm_option with
    | Some old_comm =>
      e = ChangeCommError;
      ThrowError e
    | None =>
      ValidateRate new_rate;
      ValidateChangeRate comm new_rate;
      comm_for_ssn[initiator][lrc] := new_rate;
      ssn =  Ssn active_status stake_amt rewards name ur";
"lraw urlapi buffdeposit new_rate comm_rewards rec_addr;
      ssnlist[initiator] := ssn;
      e = { _eventname: ""UpdateComm""; ssn_addr: initiator; new_rate: new_rate };
      event e
    end
  | None =>
    e = SSNNotExist;
    ThrowError e
  end
end

transition WithdrawComm(initiator: ByStr20)
  IsNotPaused;
  IsProxy;
  curval <- ssnlist[initiator];
  match curval with
  | None =>
    e = SSNNotExist;
    ThrowError e
  | Some (Ssn active_status stake_amt rewards name urlraw urlapi buffdeposi";
"t comm comm_rewards rec_addr) =>
    has_comm = uint128_gt comm_rewards uint128_zero;
    match has_comm with
    | True =>
      e = { _eventname: ""SSN withdraw reward""; ssn_addr: initiator; withdraw_comm: comm_rewards };
      event e;
      ssn = Ssn active_status stake_amt rewards name urlraw urlapi buffdeposit comm uint128_zero rec_addr;
      ssnlist[initiator] := ssn;
      TransferFunds addfunds_tag comm_rewards rec_addr
    | False =>
      e = SSNNoComm;
      ThrowError e
    end
  en";
"d
end

transition UpdateReceivingAddr(new_addr: ByStr20, initiator: ByStr20)
  IsNotPaused;
  IsProxy;
  curval <- ssnlist[initiator];
  match curval with
  | Some (Ssn active_status stake_amt rewards name urlraw urlapi buffdeposit comm comm_rewards rec_addr) =>
    ssn =  Ssn active_status stake_amt rewards name urlraw urlapi buffdeposit comm comm_rewards new_addr;
    ssnlist[initiator] := ssn;
    e = { _eventname: ""UpdateReceivingAddr""; ssn_addr: initiator; new_addr: new_addr };
    event e
";
"  | None =>
    e = SSNNotExist;
    ThrowError e
  end
end


transition DelegateStake(ssnaddr: ByStr20, initiator: ByStr20)
  IsNotPaused;
  IsProxy;
  (* Accept the deposit from SSN and add to contract balance. *)
  accept; 
  amount = _amount;
  Delegate ssnaddr initiator amount;
  e = { _eventname: ""DelegateStake""; ssn_addr: ssnaddr; delegator: initiator; amount: amount };
  event e;
  msg_to_delegator = {_tag : ""DelegateStakeSuccessCallBack""; _recipient : initiator; _amount : uint128_zero; ";
"
  ssnaddr : ssnaddr; amount : amount};
  msg = one_msg msg_to_delegator;
  send msg
end

transition WithdrawStakeRewards(ssnaddr: ByStr20, initiator: ByStr20)
  IsNotPaused;
  IsProxy;
  DelegExists ssnaddr initiator;
  WithdrawalStakeRewards initiator ssnaddr
end

transition WithdrawStakeAmt(ssnaddr: ByStr20, amt: Uint128, initiator: ByStr20)
  IsNotPaused;
  IsProxy;
  WithdrawalStakeAmt initiator ssnaddr amt;
  msg_to_delegator = {_tag : ""WithdrawStakeAmtSuccessCallBack""; _recipient : initia";
"tor; _amount : uint128_zero; 
  ssnaddr : ssnaddr; amount : amt};
  msg = one_msg msg_to_delegator;
  send msg
end

transition CompleteWithdrawal(initiator: ByStr20)
  IsNotPaused;
  IsProxy;
  withdraw_map_o <- withdrawal_pending[initiator];
  match withdraw_map_o with
  | Some withdraw_map =>
    withdraw_list = builtin to_list withdraw_map;
    (* To init tmp fields *)
    withdrawal_zero = uint128_zero;
    available_withdrawal := withdrawal_zero;
    c = Some {ByStr20} initiator;
    curren";
"t_deleg := c;

    (* Calculate withdrawal that can be transferred *)
    forall withdraw_list CalculateTotalWithdrawal;
    withdraw_amt <- available_withdrawal;
    transfer = builtin eq withdraw_amt uint128_zero;
    match transfer with
    | True =>
      e = { _eventname: ""NoUnbondedStake""; ssnaddr: initiator };
      event e;
      msg_to_delegator = {_tag : ""CompleteWithdrawalNoUnbondedStakeCallBack""; _recipient : initiator; _amount : uint128_zero; 
      amount : uint128_zero};
      msg";
" = one_msg msg_to_delegator;
      send msg
    | False =>
      e = { _eventname: ""CompleteWithdrawal""; ssnaddr: initiator; amount: withdraw_amt };
      event e;
      TransferFunds addfunds_tag withdraw_amt initiator;
      msg_to_delegator = {_tag : ""CompleteWithdrawalSuccessCallBack""; _recipient : initiator; _amount : uint128_zero; 
      amount : withdraw_amt};
      msg = one_msg msg_to_delegator;
      send msg
    end
  | None =>
    e = { _eventname: ""NoPendingWithdrawal""; ssnaddr: ini";
"tiator };
    event e
  end
end

transition ReDelegateStake(ssnaddr: ByStr20, to_ssn: ByStr20, amount: Uint128, initiator: ByStr20)
  IsNotPaused;
  IsProxy;
  same_ssn = builtin eq ssnaddr to_ssn;
  match same_ssn with
  | True =>
    e = ReDelegInvalidSSNAddr;
    ThrowError e
  | False =>
    UnDelegateStakeAmt initiator ssnaddr amount;
    Delegate to_ssn initiator amount;
    e = { _eventname: ""ReDelegateStakeSuccess""; ssnaddr: ssnaddr; to_ssn: to_ssn; delegator: initiator; delegate_amount:";
" amount };
    event e;
    msg_to_delegator = {_tag : ""ReDelegateStakeSuccessCallBack""; _recipient : initiator; _amount : uint128_zero; 
    ssnaddr: ssnaddr; tossn: to_ssn; amount : amount};
    msg = one_msg msg_to_delegator;
    send msg
  end
  
end



transition AssignStakeReward(ssnreward_list: List (Pair ByStr20 Uint128), initiator: ByStr20)
  IsNotPaused;
  IsProxy;
  CallerIsVerifier initiator;
  lrc <- lastrewardcycle;
  accept;
  newLastRewardCycleNum = builtin add uint32_one lrc;
  ";
"lastrewardcycle := newLastRewardCycleNum;
  (* _amount: total rewards for ssn operator, delegators and verifier *)
  verifier_reward := _amount;
  
  total_stake_amt <- totalstakeamount;
  f = map_to_stake_rewards total_stake_amt;

  mapper = @list_map (Pair ByStr20 Uint128) SsnStakeRewardShare;
  ssn_stake_reward_list = mapper f ssnreward_list;
  forall ssn_stake_reward_list UpdateStakeReward;
  verifier_reward_amt <- verifier_reward;
  verifier_o <- verifier_receiving_addr;
  match verifier_o ";
"with
  | Some v => 
    is_zero = builtin eq verifier_reward_amt uint128_zero;
    match is_zero with
    | True =>
    | False =>
      TransferFunds addfunds_tag verifier_reward_amt v
    end
  | None =>
    e = VerifierRecvAddrNotSet;
    ThrowError e
  end

end


transition AddFunds(initiator: ByStr20)
  IsProxy;
  accept;
  e = { _eventname : ""Funds deposit ""; funder : initiator };
  event e
end




procedure ActualSwapDirectDeposit(direct_deposit_cycle: Pair Uint32 Uint128)
  current_ssn_o";
" <- current_ssn;
  current_deleg_o <- current_deleg;
  new_deleg_o <- new_deleg;

  fst = @fst Uint32 Uint128;
  snd = @snd Uint32 Uint128;
  reward_cycle = fst direct_deposit_cycle;
  current_direct_deposit_amt = snd direct_deposit_cycle;

  match new_deleg_o with
  | Some new_deleg_addr =>
    match current_deleg_o with
    | Some initial_deleg =>
      match current_ssn_o with
      | Some ssn =>
        (* new deleg already has existing direct deposit on ssn *)
        new_deleg_direct_depos";
"it_amt <- direct_deposit_deleg[new_deleg_addr][ssn][reward_cycle];
        match new_deleg_direct_deposit_amt with
        | Some new_deleg_direct_deposit =>
          new_amt = builtin add new_deleg_direct_deposit current_direct_deposit_amt;
          direct_deposit_deleg[new_deleg_addr][ssn][reward_cycle] := new_amt;
          e = { _eventname: ""SwapDirectDepositExists""; initial_deleg: initial_deleg; new_deleg: new_deleg_addr; ssn_addr: ssn; existing_amt: current_direct_deposit_amt; transferre";
"d_amt: new_deleg_direct_deposit; new_amt: new_amt };
          event e
        | None =>
          (* new deleg has no direct deposit on ssn *)
          (* take amount from current deleg and give to new deleg *)
          direct_deposit_deleg[new_deleg_addr][ssn][reward_cycle] := current_direct_deposit_amt;
          e = { _eventname: ""SwapDirectDepositNewEntry""; initial_deleg: initial_deleg; new_deleg: new_deleg_addr; ssn_addr: ssn; amt: current_direct_deposit_amt };
          event e
        ";
"end
      | None =>
        (* no ssn to get info from *)
      end
    | None =>
      (* no current deleg to get info from *)
    end
  | None =>
    (* no new deleg to transfer to *)
  end
end

procedure SwapDirectDeposit(ssndeposit: Pair ByStr20 Uint128)
  fst = @fst ByStr20 Uint128;
  ssn_address = fst ssndeposit;
  current_deleg_o <- current_deleg;

  match current_deleg_o with
  | Some deleg =>
    direct_deposit_cycle_map <- direct_deposit_deleg[deleg][ssn_address];
    match direct_depo";
"sit_cycle_map with
    | Some direct_deposit_cycle_map_o =>
      direct_deposit_list = builtin to_list direct_deposit_cycle_map_o;
      ssn = Some {ByStr20} ssn_address;
      current_ssn := ssn;
      forall direct_deposit_list ActualSwapDirectDeposit;
      (* delete after add operation *)
      delete direct_deposit_deleg[deleg][ssn_address]
    | None => (* No direct deposit at this ssn *)
    end
  | None => (* not possible to have no existing deleg *)
  end
end

procedure ActualSwapDeleg";
"StakePerCycle(deleg_stake_cycle: Pair Uint32 Uint128)
  current_ssn_o <- current_ssn;
  current_deleg_o <- current_deleg;
  new_deleg_o <- new_deleg;

  fst = @fst Uint32 Uint128;
  snd = @snd Uint32 Uint128;
  cycle_no = fst deleg_stake_cycle;
  current_deposit_amt = snd deleg_stake_cycle;

  match new_deleg_o with
  | Some new_deleg_addr =>
    match current_deleg_o with
    | Some initial_deleg =>
      match current_ssn_o with
      | Some ssn =>
        (* new deleg already has existing del";
"eg stake per cycle on ssn *)
        deleg_stake_deposit <- deleg_stake_per_cycle[new_deleg_addr][ssn][cycle_no];
        match deleg_stake_deposit with
        | Some stake_deposit =>
          new_amt = builtin add stake_deposit current_deposit_amt;
          deleg_stake_per_cycle[new_deleg_addr][ssn][cycle_no] := new_amt;
          e = { _eventname: ""SwapDelegStakePerCycleExists""; initial_deleg: initial_deleg; new_deleg: new_deleg_addr; ssn_addr: ssn; existing_amt: current_deposit_amt; transf";
"erred_amt: stake_deposit; new_amt: new_amt };
          event e
        | None =>
          (* new deleg has no deleg stake per cycle on ssn *)
          (* take amount from current deleg and give to new deleg *)
          deleg_stake_per_cycle[new_deleg_addr][ssn][cycle_no] := current_deposit_amt;
          e = { _eventname: ""SwapDelegStakePerCycleNewEntry""; initial_deleg: initial_deleg; new_deleg: new_deleg_addr; ssn_addr: ssn; amt: current_deposit_amt };
          event e
        end
      | ";
"None =>
        (* no ssn to get info from *)
      end
    | None =>
      (* no current deleg to get info from *)
    end
  | None =>
    (* no new deleg to transfer to *)
  end
end

procedure SwapDelegStakePerCycle(ssndeposit: Pair ByStr20 Uint128)
  fst = @fst ByStr20 Uint128;
  ssn_address = fst ssndeposit;
  current_deleg_o <- current_deleg;

  match current_deleg_o with
  | Some deleg =>
    deleg_stake_per_cycle_map <- deleg_stake_per_cycle[deleg][ssn_address];
    match deleg_stake_per_";
"cycle_map with
    | Some deleg_stake_per_cycle_map_o =>
      deleg_stake_per_cycle_list = builtin to_list deleg_stake_per_cycle_map_o;
      ssn = Some {ByStr20} ssn_address;
      current_ssn := ssn;
      forall deleg_stake_per_cycle_list ActualSwapDelegStakePerCycle;
      (* delete after add operation *)
      delete deleg_stake_per_cycle[deleg][ssn_address]
    | None => (* No deposit at this ssn *)
    end
  | None => (* not possible to have no existing deleg *)
  end
end

procedure Swap";
"DepositAmtDeleg(ssndeposit: Pair ByStr20 Uint128)
  fst = @fst ByStr20 Uint128;
  ssn_address = fst ssndeposit;
  current_deleg_o <- current_deleg;
  new_deleg_o <- new_deleg;

  match current_deleg_o with
  | Some initial_deleg =>
    deposit_deleg_amt <- deposit_amt_deleg[initial_deleg][ssn_address];
    match deposit_deleg_amt with
    | Some deposit_amt =>
      match new_deleg_o with
      | Some new_deleg_addr =>
        current_deposit_deleg_amt <- deposit_amt_deleg[new_deleg_addr][ssn_ad";
"dress];
        match current_deposit_deleg_amt with
        | Some existing_deposit_amt =>
          (* new deleg already has an existing deposit_amt_deleg entry *)
          new_amt = builtin add existing_deposit_amt deposit_amt;
          deposit_amt_deleg[new_deleg_addr][ssn_address] := new_amt;
          delete deposit_amt_deleg[initial_deleg][ssn_address];
          e = { _eventname: ""SwapDepositAmtDelegExists""; initial_deleg: initial_deleg; new_deleg: new_deleg_addr; ssn_addr: ssn_address";
"; existing_amt: existing_deposit_amt; transferred_amt: deposit_amt; new_amt: new_amt };
          event e
        | None =>
          (* new deleg has no deposit deleg amt on ssn *)
          (* take amount from current deleg and give to new deleg *)
          deposit_amt_deleg[new_deleg_addr][ssn_address] := deposit_amt;
          delete deposit_amt_deleg[initial_deleg][ssn_address];
          e = { _eventname: ""SwapDepositAmtDelegNewEntry""; initial_deleg: initial_deleg; new_deleg: new_deleg_ad";
"dr; ssn_addr: ssn_address; amt: deposit_amt };
          event e
        end
      | None => (* no new deleg to transfer to *)
      end
    | None => (* No deposit at this ssn *)
    end
  | None => (* not possible to have no existing deleg *)
  end
end

procedure SwapSSNDelegAmt(ssndeposit: Pair ByStr20 Uint128)
  fst = @fst ByStr20 Uint128;
  ssn_address = fst ssndeposit;
  current_deleg_o <- current_deleg;
  new_deleg_o <- new_deleg;

  match current_deleg_o with
  | Some initial_deleg =>
  ";
"  ssn_deleg_deposit <- ssn_deleg_amt[ssn_address][initial_deleg];
    match ssn_deleg_deposit with
    | Some ssn_deleg_deposit_amt =>
      match new_deleg_o with
      | Some new_deleg_addr =>
        new_ssn_deleg_amt <- ssn_deleg_amt[ssn_address][new_deleg_addr];
        match new_ssn_deleg_amt with
        | Some existing_deleg_amt =>
          new_amt = builtin add existing_deleg_amt ssn_deleg_deposit_amt;
          ssn_deleg_amt[ssn_address][new_deleg_addr] := new_amt;
          delete ss";
"n_deleg_amt[ssn_address][initial_deleg];
          e = { _eventname: ""SwapSSNDelegAmtExists""; initial_deleg: initial_deleg; new_deleg: new_deleg_addr; ssn_addr: ssn_address; existing_amt: existing_deleg_amt; transferred_amt: ssn_deleg_deposit_amt; new_amt: new_amt };
          event e
        | None =>
          (* new deleg has no deposit deleg amt on ssn *)
          (* take amount from current deleg and give to new deleg *)
          ssn_deleg_amt[ssn_address][new_deleg_addr] := ssn_deleg_dep";
"osit_amt;
          delete ssn_deleg_amt[ssn_address][initial_deleg];
          e = { _eventname: ""SwapSSNDelegAmtNewEntry""; initial_deleg: initial_deleg; new_deleg: new_deleg_addr; ssn_addr: ssn_address; amt: ssn_deleg_deposit_amt };
          event e
        end
      | None => (* no new deleg to transfer to *)
      end
    | None => (* No deleg deposit for this ssn *)
    end
  | None => (* not possible to have no existing deleg *)
  end
end

procedure SwapLastWithdrawCycleDeleg(ssndeposit: ";
"Pair ByStr20 Uint128)
  fst = @fst ByStr20 Uint128;
  ssn_address = fst ssndeposit;
  current_deleg_o <- current_deleg;
  new_deleg_o <- new_deleg;

  match current_deleg_o with
  | Some initial_deleg =>
    lwcd <- last_withdraw_cycle_deleg[initial_deleg][ssn_address];
    match lwcd with
    | Some requestor_lwcd =>
      match new_deleg_o with
      | Some new_deleg_addr =>
        new_deleg_lwcd <- last_withdraw_cycle_deleg[new_deleg_addr][ssn_address];
        match new_deleg_lwcd with
    ";
"    | Some existing_lwcd =>
          (* new deleg has delegate same ssn as requestor *)
          (* don't replace; already assert no buffered deposit and rewards for both requestor and new_deleg  *)
          (* requestor lwcd should be similar to new_deleg lwcd *)
          delete last_withdraw_cycle_deleg[initial_deleg][ssn_address];
          e = { _eventname: ""SwapLastWithdrawCycleDelegExists""; initial_deleg: initial_deleg; new_deleg: new_deleg_addr; ssn_addr: ssn_address; existing_lwcd: e";
"xisting_lwcd };
          event e
        | None =>
          (* new deleg has no last withdraw cycle for this ssn *)
          last_withdraw_cycle_deleg[new_deleg_addr][ssn_address] := requestor_lwcd;
          delete last_withdraw_cycle_deleg[initial_deleg][ssn_address];
          e = { _eventname: ""SwapLastWithdrawCycleDelegNewEntry""; initial_deleg: initial_deleg; new_deleg: new_deleg_addr; ssn_addr: ssn_address; lwcd: requestor_lwcd };
          event e
        end
      | None => (* no new ";
"deleg to transfer to *)
      end
    | None => (* No last withdraw cycle for this ssn *)
    end
  | None => (* not possible to have no existing deleg *)
  end
end

procedure SwapLastBuffDepositCycleDeleg(ssndeposit: Pair ByStr20 Uint128)
  fst = @fst ByStr20 Uint128;
  ssn_address = fst ssndeposit;
  current_deleg_o <- current_deleg;
  new_deleg_o <- new_deleg;

  match current_deleg_o with
  | Some initial_deleg =>
    lbdc <- last_buf_deposit_cycle_deleg[initial_deleg][ssn_address];
    matc";
"h lbdc with
    | Some requestor_lbdc =>
      match new_deleg_o with
      | Some new_deleg_addr =>
        new_deleg_lbdc <- last_buf_deposit_cycle_deleg[new_deleg_addr][ssn_address];
        match new_deleg_lbdc with
        | Some existing_lbdc =>
          (* new deleg has delegate same ssn as requestor *)
          (* don't replace; already assert no buffered deposit and rewards for both requestor and new_deleg  *)
          delete last_buf_deposit_cycle_deleg[initial_deleg][ssn_address];
";
"          e = { _eventname: ""SwapLastBuffDepositCycleDelegExists""; initial_deleg: initial_deleg; new_deleg: new_deleg_addr; ssn_addr: ssn_address; existing_lbdc: existing_lbdc };
          event e
        | None =>
          (* new deleg has no last buff deposit for this ssn *)
          last_buf_deposit_cycle_deleg[new_deleg_addr][ssn_address] := requestor_lbdc;
          delete last_buf_deposit_cycle_deleg[initial_deleg][ssn_address];
          e = { _eventname: ""SwapLastBuffDepositCycleDelegN";
"ewEntry""; initial_deleg: initial_deleg; new_deleg: new_deleg_addr; ssn_addr: ssn_address; lbdc: requestor_lbdc };
          event e
        end
      | None => (* no new deleg to transfer to *)
      end
    | None => (* requestor has no last buff deposit cycle at this ssn *)
    end
  | None => (* not possible to have no existing deleg *)
  end
end

procedure SwapPendingWithdrawal(blk_deposit_cycle: Pair BNum Uint128)
  current_deleg_o <- current_deleg;
  new_deleg_o <- new_deleg;
  fst = @fst ";
"BNum Uint128;
  snd = @snd BNum Uint128;
  blk_num = fst blk_deposit_cycle;
  deposit = snd blk_deposit_cycle;
  
  match new_deleg_o with
  | Some new_deleg_addr =>
    new_deleg_pending_withdrawal <- withdrawal_pending[new_deleg_addr][blk_num];
    match new_deleg_pending_withdrawal with
    | Some existing_deposit =>
      (* new deleg has exisiting blk_num *)
      new_deposit = builtin add existing_deposit deposit;
      withdrawal_pending[new_deleg_addr][blk_num] := new_deposit;
      e = ";
"{ _eventname: ""SwapPendingWithdrawalExists""; initial_deleg: current_deleg_o; new_deleg: new_deleg_addr; existing_deposit: existing_deposit; new_deposit: new_deposit };
      event e
    | None =>
      (* new deleg has no blk_num entry*)
      withdrawal_pending[new_deleg_addr][blk_num] := deposit;
      e = { _eventname: ""SwapPendingWithdrawalNewEntry""; initial_deleg: current_deleg_o; new_deleg: new_deleg_addr; deposit: deposit };
      event e
    end
  | None => (* no new deleg to transfer to";
" *)
  end
end

procedure SwapCleanUp()
  r = Some {ByStr20} reset_addr;
  current_deleg := r;
  current_ssn := r;
  new_deleg := r
end

procedure SwapDelegator(requestor: ByStr20, new_deleg_addr: ByStr20)
  c = Some {ByStr20} requestor;
  current_deleg := c;
  n = Some {ByStr20} new_deleg_addr;
  new_deleg := n;

  (* get the list of requestor's ssn *)
  ssn_deposit_map <- deposit_amt_deleg[requestor];
  match ssn_deposit_map with
   | Some ssn_deposit_entry =>
     ssn_deposit_list = builtin to";
"_list ssn_deposit_entry;
     (* swap *)
     forall ssn_deposit_list SwapDirectDeposit;
     forall ssn_deposit_list SwapDelegStakePerCycle;
     forall ssn_deposit_list SwapDepositAmtDeleg;
     forall ssn_deposit_list SwapSSNDelegAmt;
     forall ssn_deposit_list SwapLastBuffDepositCycleDeleg;
     forall ssn_deposit_list SwapLastWithdrawCycleDeleg
   | None => (* nothing to swap *)
  end;
  
  (* swap pending withdrawal *)
  match c with
  | Some initial_deleg =>
    deleg_blk_map <- withdra";
"wal_pending[initial_deleg];
    match deleg_blk_map with
    | Some deleg_blk_entry =>
      cycle_reward_list = builtin to_list deleg_blk_entry;
      forall cycle_reward_list SwapPendingWithdrawal;
      delete withdrawal_pending[initial_deleg]
    | None => (* no pending withdrawal *)
    end
  | None => (* not possible to have no existing deleg *)
  end
end

procedure IsNotCyclicSwap(initiator: ByStr20, new_deleg_addr: ByStr20)
 cyclic_initiator <- deleg_swap_request[new_deleg_addr];
 match ";
"cyclic_initiator with
 | Some addr =>
   (* is there a B -> X, where X == A? *)
   is_cyclic_request = builtin eq addr initiator;
   match is_cyclic_request with
   | True =>
     e = SwapAddrAlreadyExistsAsRequest;
     ThrowError e
   | False =>
   end
 | None =>
 end
end

procedure IsNotSelfSwap(initiator: ByStr20, new_deleg_addr: ByStr20)
  is_identical_addr = builtin eq initiator new_deleg_addr;
  match is_identical_addr with
  | True =>
    e = InvalidSwapAddr;
    ThrowError e
  | False =";
">
  end
end

procedure IsValidSwapAddr(requestor: ByStr20, new_deleg_addr: ByStr20)
  swap_addr <- deleg_swap_request[requestor];
  match swap_addr with
  | Some requestor_swap_addr =>
    is_new_deleg_valid = builtin eq requestor_swap_addr new_deleg_addr;
    match is_new_deleg_valid with
    | True => (* new_deleg address matches requestor swap address *)
    | False =>
      (* throw error - requestor swap address is different *)
      e = SwapAddrValidationFailed;
      ThrowError e
    end
";
"  | None => (* throw error *)
    e = InvalidSwapAddr;
    ThrowError e
  end
end

procedure AssertSwapNoBufferedAndRewards(ssndeposit: Pair ByStr20 Uint128)
  current_deleg_o <- current_deleg;
  fst = @fst ByStr20 Uint128;
  ssn_address = fst ssndeposit;
  ssn_o <- ssnlist[ssn_address];

  match ssn_o with
  | Some (Ssn active_status stake_amt rewards name urlraw urlapi buffdeposit comm comm_rewards rec_addr) =>
    match current_deleg_o with
    | Some requestor =>
      AssertNoRewards ssn_ad";
"dress requestor rewards;
      AsseertNoBufferedDeposit ssn_address requestor;
      AssertNoBufferedDepositLessOneCycle ssn_address requestor
    | None =>
    end
  | None =>
  end
end

procedure AssertNoBufferedAndRewards(requestor : ByStr20)
  c = Some {ByStr20} requestor;
  current_deleg := c;
  (* get the list of requestor's ssn *)
  ssn_deposit_map <- deposit_amt_deleg[requestor];
  match ssn_deposit_map with
   | Some ssn_deposit_entry =>
     ssn_deposit_list = builtin to_list ssn_depos";
"it_entry;
     forall ssn_deposit_list AssertSwapNoBufferedAndRewards
   | None =>
  end
end

transition RequestDelegatorSwap(new_deleg_addr: ByStr20, initiator: ByStr20)
  IsNotPaused;
  IsProxy;
  IsNotSelfSwap initiator new_deleg_addr;
  IsNotCyclicSwap initiator new_deleg_addr;
  (* both requestor and new_deleg should not have buffered deposit or rewards, mitigate lbcd and lwcd issues *)
  AssertNoBufferedAndRewards initiator;
  AssertNoBufferedAndRewards new_deleg_addr;
  deleg_swap_request";
"[initiator] := new_deleg_addr;
  e = { _eventname: ""RequestDelegatorSwap""; initial_deleg: initiator; new_deleg: new_deleg_addr };
  event e
end

transition ConfirmDelegatorSwap(requestor: ByStr20, initiator: ByStr20)
  IsNotPaused;
  IsProxy;
  IsValidSwapAddr requestor initiator;
  (* both requestor and new_deleg should not have buffered deposit or rewards, mitigate lbcd and lwcd issues *)
  AssertNoBufferedAndRewards requestor;
  AssertNoBufferedAndRewards initiator;
  SwapDelegator requestor ";
"initiator;
  SwapCleanUp;
  (* delete the requestor's deleg key from these maps; requestor's ssnaddr key already deleted in the Swap proc *)
  CleanDirectDepositDelegAddr requestor;
  CleanDelegStakePerCycleDelegAddr requestor;
  CleanDepositAmtDelegAddr requestor;
  CleanLastWithdrawCycleDelegAddr requestor;
  CleanLastBuffDepositCycleDelegAddr requestor;
  delete deleg_swap_request[requestor];
  e = { _eventname: ""ConfirmDelegatorSwap""; initial_deleg: requestor; new_deleg: initiator };
  event";
" e
end

transition RevokeDelegatorSwap(initiator: ByStr20)
  IsNotPaused;
  IsProxy;
  swap_addr <- deleg_swap_request[initiator];
  match swap_addr with
  | Some requestor_swap_addr =>
    delete deleg_swap_request[initiator];
    e = { _eventname: ""RevokeDelegatorSwap""; initial_deleg: initiator; new_deleg: requestor_swap_addr };
    event e
  | None =>
    e = InvalidSwapAddr;
    ThrowError e
  end
end

transition RejectDelegatorSwap(requestor: ByStr20, initiator: ByStr20)
  IsNotPaused;
  Is";
"Proxy;
  IsValidSwapAddr requestor initiator;
  delete deleg_swap_request[requestor];
  e = { _eventname: ""RejectDelegatorSwap""; requestor: requestor; new_deleg: initiator };
  event e
end
"]%string.

Local Definition src_staking_proxy_v2 : list string := ["scilla_version 0

library SSNListProxy_V2

let zero = Uint128 0

let one_msg =
  fun (m: Message) =>
    let e = Nil {Message} in
    Cons {Message} m e

(***************************************************)
(*             The contract definition             *)
(***************************************************)
contract SSNListProxy_V2(
  init_implementation: ByStr20,
  init_admin: ByStr20
)

(* Mutable fields *)
field implementation: ByStr20 = init_implementation
field admin: ByStr20 = init_";
"admin
field stagingadmin: Option ByStr20 = None {ByStr20}

(***************************************************)
(*                  Transition                     *)
(***************************************************)

(***************************************************)
(*              Proxy Transition                   *)
(***************************************************)
transition UpgradeTo(newImplementation: ByStr20)
    currentAdmin <- admin;
    isAdmin = builtin eq currentAdmin _s";
"ender;
    match isAdmin with
    | True =>
      implementation := newImplementation;
      e = {_eventname: ""Upgraded""; implementation_address: newImplementation};
      event e
    | False =>
      e = {_eventname: ""upgradeTo FailedNotAdmin""; newImplementation: newImplementation};
      event e
    end
end

transition ChangeProxyAdmin(newAdmin: ByStr20)
    currentAdmin <- admin;
    isAdmin = builtin eq currentAdmin _sender;
    match isAdmin with
    | True =>
      new_staging_admin = Some";
" {ByStr20} newAdmin;
      stagingadmin := new_staging_admin;
      e = {_eventname: ""ChangeProxyAdmin""; oldAdmin: currentAdmin; newAdmin: newAdmin};
      event e
    | False =>
      e = {_eventname: ""ChangeProxyAdmin FailedNotAdmin""; newAdmin: newAdmin};
      event e
    end
end

transition ClaimProxyAdmin()
    staging_admin_o <- stagingadmin;
    match staging_admin_o with
    | Some staging_admin =>
      is_stagingadmin = builtin eq staging_admin _sender;
      match is_stagingadmin with";
"
      | True =>
        admin := _sender;
        tmp_staging_admin = None {ByStr20};
        stagingadmin := tmp_staging_admin;
        e = {_eventname: ""ClaimProxyAdmin""; newAdmin: _sender};
        event e
      | False =>
        e = {_eventname: ""ClaimProxyAdmin FailedNotStagingadmin""; newAdmin: _sender};
        event e
      end
    | None =>
      e = {_eventname: ""ClaimProxyAdmin FailedNoStagingadmin""};
      event e
    end
end

(***************************************************)
(*";
"            House keeping transition             *)
(***************************************************)
transition OptInSSNToConsensusPoolAdminOverride(ssnaddr: ByStr20)
    current_impl <- implementation;
    msg = {_tag: ""OptInSSNToConsensusPoolAdminOverride""; _recipient: current_impl; _amount: zero; ssnaddr: ssnaddr; initiator: _sender};
    msgs = one_msg msg;
    send msgs
end

transition OptOutSSNFromConsensusPoolAdminOverride(ssnaddr: ByStr20)
    current_impl <- implementation;
    msg";
" = {_tag: ""OptOutSSNFromConsensusPoolAdminOverride""; _recipient: current_impl; _amount: zero; ssnaddr: ssnaddr; initiator: _sender};
    msgs = one_msg msg;
    send msgs
end

transition RemoveFromConsensusPoolAdminOverride(ssnaddr: ByStr20)
    current_impl <- implementation;
    msg = {_tag: ""RemoveFromConsensusPoolAdminOverride""; _recipient: current_impl; _amount: zero; ssnaddr: ssnaddr; initiator: _sender};
    msgs = one_msg msg;
    send msgs
end

transition ChangeMinCommissionRate(mincomm";
"rate_value: Uint128)
    current_impl <- implementation;
    msg = {_tag: ""ChangeMinCommissionRate""; _recipient: current_impl; _amount: zero; mincommrate_value: mincommrate_value; initiator: _sender};
    msgs = one_msg msg;
    send msgs
end

transition AddSSNNonStaking(ssnaddr: ByStr20, name: String, urlraw: String, urlapi: String, comm: Uint128)
    current_impl <- implementation;
    msg = {_tag: ""AddSSNNonStaking""; _recipient: current_impl; _amount: zero; ssnaddr: ssnaddr; name: name; urlra";
"w: urlraw; urlapi: urlapi; comm: comm; initiator: _sender};
    msgs = one_msg msg;
    send msgs
end

(***************************************************)
(*             SSN operator transition             *)
(***************************************************)

transition AddSSNToConsensusPool()
    current_impl <- implementation;
    msg = {_tag: ""AddSSNToConsensusPool""; _recipient: current_impl; _amount: zero; initiator: _sender};
    msgs = one_msg msg;
    send msgs
end

transition Remov";
"eSSNFromConsensusPool()
    current_impl <- implementation;
    msg = {_tag: ""RemoveSSNFromConsensusPool""; _recipient: current_impl; _amount: zero; initiator: _sender};
    msgs = one_msg msg;
    send msgs
end

(***************************************************)
(*                Delegator transition             *)
(***************************************************)

(* @dev: Withdraw stake reward . Can be called by a deleg. *)
transition WithdrawStakeRewardsForCycles(ssnaddr: ByStr20, cycl";
"es: Uint32)
    current_impl <- implementation;
    msg = {_tag: ""WithdrawStakeRewardsForCycles""; _recipient: current_impl; _amount: zero; ssnaddr: ssnaddr; cycles: cycles; initiator: _sender};
    msgs = one_msg msg;
    send msgs
end


(***************************************************)
(*           Contract state migration              *)
(***************************************************)

transition CopySSNDelegAmt(ssn: ByStr20,
    keys: List (Pair ByStr20 Uint128))
    current_impl <-";
" implementation;
    msg = {_tag: ""CopySSNDelegAmt""; _recipient: current_impl; _amount: zero; ssn: ssn; keys: keys; initiator: _sender};
    msgs = one_msg msg;
    send msgs
end

transition MigrateStakeSSNPerCycle(ssn: ByStr20,
    keys: List (Pair Uint32 (Pair Uint128 Uint128)))
    current_impl <- implementation;
    msg = {_tag: ""MigrateStakeSSNPerCycle""; _recipient: current_impl; _amount: zero; ssn: ssn; keys: keys; initiator: _sender};
    msgs = one_msg msg;
    send msgs
end

transition ";
"CopyBuffDepositDeleg(deleg: ByStr20,
    keys: List (Pair ByStr20 (List (Pair Uint32 Uint128))))
    current_impl <- implementation;
    msg = {_tag: ""CopyBuffDepositDeleg""; _recipient: current_impl; _amount: zero; deleg: deleg; keys: keys; initiator: _sender};
    msgs = one_msg msg;
    send msgs
end

transition CopyLastBufDepositCycleDelegList(last_buf_deposit_cycle_deleg_list: (List (Pair ByStr20 (List (Pair ByStr20 Uint32)))))
    current_impl <- implementation;
    msg = {_tag: ""CopyLastBu";
"fDepositCycleDelegList""; _recipient: current_impl; _amount: zero; last_buf_deposit_cycle_deleg_list: last_buf_deposit_cycle_deleg_list; initiator: _sender};
    msgs = one_msg msg;
    send msgs
end

transition CopyLastWithdrawCycleDelegList(last_withdraw_cycle_deleg_list: (List (Pair ByStr20 (List (Pair ByStr20 Uint32)))))
    current_impl <- implementation;
    msg = {_tag: ""CopyLastWithdrawCycleDelegList""; _recipient: current_impl; _amount: zero; last_withdraw_cycle_deleg_list: last_withdraw_";
"cycle_deleg_list; initiator: _sender};
    msgs = one_msg msg;
    send msgs
end

transition CopyDelegStakePerCycleList(deleg_stake_per_cycle_list: (List (Pair ByStr20 (List (Pair ByStr20 (List (Pair Uint32 Uint128)))))))
    current_impl <- implementation;
    msg = {_tag: ""CopyDelegStakePerCycleList""; _recipient: current_impl; _amount: zero; deleg_stake_per_cycle_list: deleg_stake_per_cycle_list; initiator: _sender};
    msgs = one_msg msg;
    send msgs
end

transition CopyDirectDepositDelegL";
"ist(direct_deposit_deleg_list: (List (Pair ByStr20 (List (Pair ByStr20 (List (Pair Uint32 Uint128)))))))
    current_impl <- implementation;
    msg = {_tag: ""CopyDirectDepositDelegList""; _recipient: current_impl; _amount: zero; direct_deposit_deleg_list: direct_deposit_deleg_list; initiator: _sender};
    msgs = one_msg msg;
    send msgs
end

transition CopyBuffDepositDelegList(buff_deposit_deleg_list: (List (Pair ByStr20 (List (Pair ByStr20 (List (Pair Uint32 Uint128)))))))
    current_impl <";
"- implementation;
    msg = {_tag: ""CopyBuffDepositDelegList""; _recipient: current_impl; _amount: zero; buff_deposit_deleg_list: buff_deposit_deleg_list; initiator: _sender};
    msgs = one_msg msg;
    send msgs
end

transition CopyDepositAmtDelegList(deposit_amt_deleg_list: (List (Pair ByStr20 (List (Pair ByStr20 Uint128)))))
    current_impl <- implementation;
    msg = {_tag: ""CopyDepositAmtDelegList""; _recipient: current_impl; _amount: zero; deposit_amt_deleg_list: deposit_amt_deleg_list; i";
"nitiator: _sender};
    msgs = one_msg msg;
    send msgs
end

transition CopyWithDrawalPendingList(withdrawal_pending_list: (List (Pair ByStr20 (List (Pair BNum Uint128)))))
    current_impl <- implementation;
    msg = {_tag: ""CopyWithDrawalPendingList""; _recipient: current_impl; _amount: zero; withdrawal_pending_list: withdrawal_pending_list; initiator: _sender};
    msgs = one_msg msg;
    send msgs
end

transition CopyCommForSSNList(comm_for_ssn_list: (List (Pair ByStr20 (List (Pair Uint32 ";
"Uint128)))))
    current_impl <- implementation;
    msg = {_tag: ""CopyCommForSSNList""; _recipient: current_impl; _amount: zero; comm_for_ssn_list: comm_for_ssn_list; initiator: _sender};
    msgs = one_msg msg;
    send msgs
end

transition CopyDelegSwapRequest(deleg_swap_request_list: (List (Pair ByStr20 ByStr20)))
    current_impl <- implementation;
    msg = {_tag: ""CopyDelegSwapRequest""; _recipient: current_impl; _amount: zero; deleg_swap_request_list: deleg_swap_request_list; initiator: _s";
"ender};
    msgs = one_msg msg;
    send msgs
end

transition ChangeCycleRewardsDeleg(input_cycle_rewards_deleg: Uint128)
    current_impl <- implementation;
    msg = {_tag: ""ChangeCycleRewardsDeleg""; _recipient: current_impl; _amount: zero; input_cycle_rewards_deleg: input_cycle_rewards_deleg; initiator: _sender};
    msgs = one_msg msg;
    send msgs
end

transition ChangeVerifierReward(input_verifier_reward: Uint128)
    current_impl <- implementation;
    msg = {_tag: ""ChangeVerifierReward""";
"; _recipient: current_impl; _amount: zero; input_verifier_reward: input_verifier_reward; initiator: _sender};
    msgs = one_msg msg;
    send msgs
end

transition ChangeAvailableWithdrawal(input_available_withdrawal: Uint128)
    current_impl <- implementation;
    msg = {_tag: ""ChangeAvailableWithdrawal""; _recipient: current_impl; _amount: zero; input_available_withdrawal: input_available_withdrawal; initiator: _sender};
    msgs = one_msg msg;
    send msgs
end

transition ChangeCurrentDeleg(";
"input_current_deleg: ByStr20)
    current_impl <- implementation;
    msg = {_tag: ""ChangeCurrentDeleg""; _recipient: current_impl; _amount: zero; input_current_deleg: input_current_deleg; initiator: _sender};
    msgs = one_msg msg;
    send msgs
end

transition ChangeCurrentSSN(input_current_ssn: ByStr20)
    current_impl <- implementation;
    msg = {_tag: ""ChangeCurrentSSN""; _recipient: current_impl; _amount: zero; input_current_ssn: input_current_ssn; initiator: _sender};
    msgs = one_msg ";
"msg;
    send msgs
end

transition ChangeNewDeleg(input_new_deleg: ByStr20)
    current_impl <- implementation;
    msg = {_tag: ""ChangeNewDeleg""; _recipient: current_impl; _amount: zero; input_new_deleg: input_new_deleg; initiator: _sender};
    msgs = one_msg msg;
    send msgs
end

transition ChangeVerifier(input_verifier: ByStr20)
    current_impl <- implementation;
    msg = {_tag: ""ChangeVerifier""; _recipient: current_impl; _amount: zero; input_verifier: input_verifier; initiator: _sender}";
";
    msgs = one_msg msg;
    send msgs
end

transition ChangeVerifierReceivingAddr(input_verifier_receiving_addr: ByStr20)
    current_impl <- implementation;
    msg = {_tag: ""ChangeVerifierReceivingAddr""; _recipient: current_impl; _amount: zero; input_verifier_receiving_addr: input_verifier_receiving_addr; initiator: _sender};
    msgs = one_msg msg;
    send msgs
end

transition ChangeMinStake(input_minstake: Uint128)
    current_impl <- implementation;
    msg = {_tag: ""ChangeMinStake""; _re";
"cipient: current_impl; _amount: zero; input_minstake: input_minstake; initiator: _sender};
    msgs = one_msg msg;
    send msgs
end

transition ChangeMinDelegStake(input_mindelegstake: Uint128)
    current_impl <- implementation;
    msg = {_tag: ""ChangeMinDelegStake""; _recipient: current_impl; _amount: zero; input_mindelegstake: input_mindelegstake; initiator: _sender};
    msgs = one_msg msg;
    send msgs
end

transition ChangeLastRewardCycle(input_lastrewardcycle: Uint32)
    current_impl <";
"- implementation;
    msg = {_tag: ""ChangeLastRewardCycle""; _recipient: current_impl; _amount: zero; input_lastrewardcycle: input_lastrewardcycle; initiator: _sender};
    msgs = one_msg msg;
    send msgs
end

transition ChangeMaxCommChangeRate(input_maxcommchangerate: Uint128)
    current_impl <- implementation;
    msg = {_tag: ""ChangeMaxCommChangeRate""; _recipient: current_impl; _amount: zero; input_maxcommchangerate: input_maxcommchangerate; initiator: _sender};
    msgs = one_msg msg;
    ";
"send msgs
end

transition ChangeMaxCommRate(input_maxcommrate: Uint128)
    current_impl <- implementation;
    msg = {_tag: ""ChangeMaxCommRate""; _recipient: current_impl; _amount: zero; input_maxcommrate: input_maxcommrate; initiator: _sender};
    msgs = one_msg msg;
    send msgs
end

transition ChangeTotalStakeAmount(input_totalstakeamount: Uint128)
    current_impl <- implementation;
    msg = {_tag: ""ChangeTotalStakeAmount""; _recipient: current_impl; _amount: zero; input_totalstakeamount: ";
"input_totalstakeamount; initiator: _sender};
    msgs = one_msg msg;
    send msgs
end
"]%string.

Local Definition src_stzil : list string := ["scilla_version 0

import ListUtils IntUtils BoolUtils PairUtils

(***************************************************)
(*               Associated library                *)
(***************************************************)
library StZIL

type Withdrawal =
  | Withdrawal of Uint128 Uint128

type Error =
  (* ZRC-2 error codes *)
  | CodeIsSender
  | CodeInsufficientFunds
  | CodeInsufficientAllowance
  | CodeNotOwner
  (* Custom error codes *)
  | AdminValidationFailed
  | BufferAddrUnknown
 ";
" | BufferAlreadyDrained
  | BufferNotDrained
  | BufferOrHolderValidationFailed
  | BuffersEmpty
  | CantFetchZimplDelegExists
  | CantFetchZimplDelegSsnExists
  | CantFetchZimplFields
  | CantFetchZimplHolderStakes
  | ChownStakeCantFetchRemote
  | ChownStakeSwapRequestNotFound
  | ClaimWithdrawalNoUnbonded
  | CompleteWithdrawalFundsMismatch
  | DelegAddrUnknown
  | DelegDoesNotExistAtSSN
  | DelegHasNoSufficientAmt
  | DelegStakeFundsMismatch
  | DelegStakeNotEnough
  | InvalidTotalAmt
  | In";
"validRewardsFee
  | HolderAlreadySet
  | NotPausedIn
  | NotPausedOut
  | NotPausedZrc2
  | PausedIn
  | PausedOut
  | PausedZrc2
  | SsnAddressesEmpty
  | SsnAddressDoesNotExist
  | SsnAddressExists
  | StagingOwnerNotExists
  | StagingOwnerValidationFailed
  | WithdrawAmountTooBig
  | WithdrawTokensAmtLessThanFee

let make_error =
  fun (result: Error) =>
    let result_code =
      match result with
      (* ZRC-2 error codes *)
      | CodeIsSender                     => Int32 -1
      | Cod";
"eInsufficientFunds            => Int32 -2
      | CodeInsufficientAllowance        => Int32 -3
      | CodeNotOwner                     => Int32 -4
      (* Custom error codes *)
      | AdminValidationFailed            => Int32 -100
      | BufferAddrUnknown                => Int32 -101
      | BufferAlreadyDrained             => Int32 -102
      | BufferNotDrained                 => Int32 -103
      | BufferOrHolderValidationFailed   => Int32 -104
      | BuffersEmpty                     => In";
"t32 -105
      | CantFetchZimplDelegExists        => Int32 -106
      | CantFetchZimplDelegSsnExists     => Int32 -107
      | CantFetchZimplFields             => Int32 -108
      | CantFetchZimplHolderStakes       => Int32 -109
      | ChownStakeCantFetchRemote        => Int32 -110
      | ChownStakeSwapRequestNotFound    => Int32 -111
      | ClaimWithdrawalNoUnbonded        => Int32 -112
      | CompleteWithdrawalFundsMismatch  => Int32 -113
      | DelegAddrUnknown                 => Int32 -";
"114
      | DelegDoesNotExistAtSSN           => Int32 -115
      | DelegHasNoSufficientAmt          => Int32 -116
      | DelegStakeFundsMismatch          => Int32 -117
      | DelegStakeNotEnough              => Int32 -118
      | InvalidTotalAmt                  => Int32 -119
      | InvalidRewardsFee                => Int32 -122
      | HolderAlreadySet                 => Int32 -124
      | NotPausedIn                      => Int32 -125
      | NotPausedOut                     => Int32 -126
 ";
"     | NotPausedZrc2                    => Int32 -127
      | PausedOut                        => Int32 -129
      | PausedIn                         => Int32 -130
      | PausedZrc2                       => Int32 -131
      | SsnAddressesEmpty                => Int32 -132
      | SsnAddressDoesNotExist           => Int32 -133
      | SsnAddressExists                 => Int32 -134
      | StagingOwnerNotExists            => Int32 -135
      | StagingOwnerValidationFailed     => Int32 -136
      ";
"| WithdrawAmountTooBig             => Int32 -137
      | WithdrawTokensAmtLessThanFee     => Int32 -138
      end
    in
    { _exception: ""Error""; code: result_code }

let bystr20_eq : ByStr20 -> ByStr20 -> Bool =
  fun (x : ByStr20) =>
  fun (y : ByStr20) =>
    builtin eq x y

let uint128_to_uint256 : Uint128 -> Uint256 =
  fun (x : Uint128) =>
    let ox256 = builtin to_uint256 x in
      match ox256 with
      | None =>
        (* this never happens, hence we throw a division by zero except";
"ion just in case *)
        let zero = Uint256 0 in
        builtin div zero zero
      | Some x256 => x256
      end

let muldiv : Uint128 -> Uint128 -> Uint128 -> Uint128 =
    fun (x : Uint128) =>
    fun (y : Uint128) =>
    fun (z : Uint128) =>
      let x256 = uint128_to_uint256 x in
      let y256 = uint128_to_uint256 y in
      let z256 = uint128_to_uint256 z in
      let x_mul_y256 = builtin mul x256 y256 in
      let res256 = builtin div x_mul_y256 z256 in
      let ores128 = builtin t";
"o_uint128 res256 in
      match ores128 with
      | None =>
        (* this must never happen, hence we throw an integer overflow exception *)
        let max_uint128 = Uint128 340282366920938463463374607431768211455 in
        let fourtytwo128 = Uint128 42 in
        builtin mul max_uint128 fourtytwo128
      | Some res128 =>
        res128
      end

let one_msg =
  fun (msg : Message) =>
    let nil_msg = Nil {Message} in
    Cons {Message} msg nil_msg

let two_msgs =
  fun (msg1 : Message) ";
"=>
  fun (msg2 : Message) =>
    let msgs_tmp = one_msg msg2 in
    Cons {Message} msg1 msgs_tmp

let false = False
let true = True
let uint128_zero = Uint128 0
let uint128_one = Uint128 1
let uint32_zero = Uint32 0
let uint32_one = Uint32 1
let bystr20_zero = 0x0000000000000000000000000000000000000000
let fee_denom = Uint128 10000 (* fee denominated in basis points (1 b.p. = 0.01%) *)

let option_value =
  tfun 'A =>
  fun (default: 'A) =>
  fun (opt_val: Option 'A) =>
    match opt_val with
  ";
"  | Some v => v
    | None => default
    end

let option_uint32_value =
  let f = @option_value Uint32 in
  f uint32_zero

let option_uint128_value =
  let f = @option_value Uint128 in
  f uint128_zero

let option_bystr20_value =
  let f = @option_value ByStr20 in
  f bystr20_zero

let list_bystr20_length =
  fun (l : List ByStr20) =>
    let flist_length = @list_length ByStr20 in
    flist_length l

let not_equal_bystr20 = fun (a: ByStr20) => fun(b: ByStr20) =>
  let equal = builtin eq a b in
";
"  negb equal (* from BoolUtils *)

let addfunds_tag = ""AddFunds""

(* active buffer is remainder of division of lastrewardcycle by buffers count *)
let get_active_buffer_addr =
  fun (l : List ByStr20) =>
  fun (lastrewardcycle : Uint32) =>
    let l_length = list_bystr20_length l in
    let active = builtin rem lastrewardcycle l_length in
    let flist_nth = @list_nth ByStr20 in
    let addr_o = flist_nth active l in
    option_bystr20_value addr_o

(* get active ssn address; it's remainder of d";
"ivision of ssn_index by ssn addresses count *)
let get_active_ssn_addr =
  fun (l : List ByStr20) =>
  fun (ssn_index : Uint128) =>
    let l_length = list_bystr20_length l in
    let opt_l_length_uint128 = builtin to_uint128 l_length in
    let l_length_uint128 = option_uint128_value opt_l_length_uint128 in
    let active_uint128 = builtin rem ssn_index l_length_uint128 in
    let opt_active_uint32 = builtin to_uint32 active_uint128 in
    let active_uint32 = option_uint32_value opt_active_uint";
"32 in
    let flist_nth = @list_nth ByStr20 in
    let addr_o = flist_nth active_uint32 l in
    option_bystr20_value addr_o

(* remove not unbonded blocks from blocks list *)
let leave_unbonded =
  fun (current_bnum: BNum) =>
  fun (bnum_req_delta: Uint128) =>
  fun (blist: List BNum) =>
    let is_unbonded =
      fun (withdraw_inited_bnum: BNum) =>
        let btest = builtin badd withdraw_inited_bnum bnum_req_delta in
        builtin blt btest current_bnum in
    let filterBNum = @list_filte";
"r BNum in
    filterBNum is_unbonded blist

(* check if address is buffer address *)
let is_addr_in_list =
  fun(l: List ByStr20) =>
  fun(addr: ByStr20) =>
    let feq = bystr20_eq addr in
    let flist_exists = @list_exists ByStr20 in
    flist_exists feq l

let remove_addr_from_list = fun(addr: ByStr20) => fun(l: List ByStr20) =>
  let f = not_equal_bystr20 addr in
  let filterBystr20 = @list_filter ByStr20 in
  filterBystr20 f l

(* sum the integer type values in a map *)
let sum_amount = fu";
"n(m: Map ByStr20 Uint128) =>
  (* create a list of (key,values) pairs of the map *)
  let l = builtin to_list m in
  (* use fold to sum up the second elements of all pairs *)
  let folder = @list_foldl (Pair ByStr20 Uint128) Uint128 in
  let init = Uint128 0 in (* initialize the accumulator at 0 *)
  let addition = (* add elements to accumulator: extract second element of Pair and add *)
    fun(acc: Uint128) =>
    fun(pair: Pair ByStr20 Uint128) =>
      let the_int = @snd ByStr20 Uint128 in (";
"* get the int *)
      let int = the_int pair in
      builtin add acc int in (* add int to accumulator *)
    folder addition init l (* apply to entire list of pairs *)

let bool_to_uint32 = fun(bval: Bool) =>
  match bval with
  | True =>
    uint32_one
  | False =>
    uint32_zero
  end

(* get heaviest ssn address from provided map[address]amount *)
(* address must have amount enough to withdraw requested withdraw_amount: Uint128 *)
(* non-whitelisted (slashed) address will be returned as a ";
"priority *)
let get_heaviest = fun(m: Map ByStr20 Uint128) => fun(whitelist: List ByStr20) => fun(withdraw_amount: Uint128) =>
  (* create a list of (key,values) pairs of the map *)
  let l = builtin to_list m in (* list consist of Pairs (ssnaddr, amount) *)
  (* use foldl to create heaviest_by_status map[slashed=0,whitelisted=1]HeaviestPair(ssnaddr,amount)  *)
  let folder = @list_foldl (Pair ByStr20 Uint128) (Map Uint32 (Pair ByStr20 Uint128)) in (* @list_foldl 'Next 'Accumulator *)
  let init";
" = Emp Uint32 (Pair ByStr20 Uint128) in (* initialize the accumulator as map[slashed=0,whitelisted=1]Pair(address,amount) *)
  let compare = (* update accumulator function *)
    fun(acc: Map Uint32 (Pair ByStr20 Uint128)) =>
    fun(nextpair: Pair ByStr20 Uint128) =>
      let the_int_next = @snd ByStr20 Uint128 in
      let int_next = the_int_next nextpair in
      (* check if nextpair's amount is less then withdraw_amount *)
      let is_next_less_than_amount = builtin lt int_next withdraw_am";
"ount in
      match is_next_less_than_amount with
      | True =>
        acc (* nextpair's amount less then withdraw_amount, so we skip it, and keep accumulator as is *)
      | False =>
        match nextpair with
        | Pair next_ssnaddr next_amount =>
          let status_bool = is_addr_in_list whitelist next_ssnaddr in
          let status = bool_to_uint32 status_bool in (* 0 - address slashed; 1 - address whitelisted *)
          let curval = builtin get acc status in
          match cu";
"rval with
          | Some (Pair acc_ssnaddr acc_amount) =>
            let is_next_less_than_acc = builtin lt next_amount acc_amount in
            match is_next_less_than_acc with
            | True =>
              (* nextpair's amount less then acc[status]amount, so we ignore nextpair, and keep acc[status]Pair as is *)
              acc
            | False =>
              builtin put acc status nextpair
            end
          | None =>
            (* there is no Pair for this status in a";
"ccumulator, add it *)
            builtin put acc status nextpair
          end
        end
      end in
  let heaviest_by_status = folder compare init l in (* apply fold function to list *)
  let heaviest_slashed = builtin get heaviest_by_status uint32_zero in (* first, check slashed *)
  match heaviest_slashed with
  | Some (Pair slashed_ssnaddr slashed_amount) =>
    Some {ByStr20} slashed_ssnaddr
  | None =>
    let heaviest_whitelisted = builtin get heaviest_by_status uint32_one in (* if sl";
"ashed not found, check whitelisted *)
    match heaviest_whitelisted with
    | Some (Pair whitelisted_ssnaddr whitelisted_amount) =>
      Some {ByStr20} whitelisted_ssnaddr
    | None =>
      None {ByStr20} (* nothing found *)
    end
  end

(***************************************************)
(*             The contract definition             *)
(***************************************************)

contract StZIL(
  contract_owner            : ByStr20,
  init_admin_address        : ByStr20";
",
  init_zimpl_address        : ByStr20,
  name                      : String,
  symbol                    : String,
  decimals                  : Uint32,
  init_supply               : Uint128
)

field owner_address          : ByStr20 = contract_owner
field admin_address          : ByStr20 = init_admin_address
field treasury_address       : ByStr20 = init_admin_address
field withdrawal_fee_address : ByStr20 = init_admin_address
field zimpl_address          : ByStr20 = init_zimpl_address
field ho";
"lder_address         : ByStr20 = bystr20_zero
field buffers_addresses      : List ByStr20 = Nil {ByStr20}
field ssn_addresses          : List ByStr20 = Nil {ByStr20}
field staging_owner_address  : Option ByStr20 = None {ByStr20}

field is_paused_in  : Bool = True
field is_paused_out : Bool = True
field is_paused_zrc2: Bool = True

(* 10 ZIL expresssed in Qa where 1 ZIL = 10^12 Qa *)
field mindelegstake     : Uint128 = Uint128 10000000000000
field withdrawal_fee    : Uint128 = Uint128 0
field rew";
"ards_fee       : Uint128 = uint128_zero
field totalstakeamount  : Uint128 = uint128_zero
field autorestakeamount : Uint128 = uint128_zero
field total_supply      : Uint128 = uint128_zero

(* Delegator -> Token balance *)
field balances: Map ByStr20 Uint128 = Emp ByStr20 Uint128

(* Sender -> (Spender -> Allowance) *)
field allowances: Map ByStr20 (Map ByStr20 Uint128) = Emp ByStr20 (Map ByStr20 Uint128)

(* BlockNumber -> AddressOfDeleg ->  Withdrawal of Token:Uint128 Stake:Uint128 *)
field with";
"drawal_pending:              Map BNum (Map ByStr20 Withdrawal) = Emp BNum (Map ByStr20 Withdrawal)

(* AddressOfDeleg -> BlockNumber -> Withdrawal of Token:Uint128 Stake:Uint128 *)
field withdrawal_pending_of_delegator: Map ByStr20 (Map BNum Withdrawal) = Emp ByStr20 (Map BNum Withdrawal)

(* AddressOfDeleg ->  Deposit *)
field withdrawal_unbonded: Map ByStr20 Withdrawal = Emp ByStr20 Withdrawal

field buffer_drained_cycle: Map ByStr20 Uint32 = Emp ByStr20 Uint32
field ssn_index: Uint128 = uint1";
"28_zero

field tmp_delegator                     : Option ByStr20 = None {ByStr20}
field tmp_stake_delegate_amount         : Uint128        = uint128_zero
field tmp_complete_withdrawal_available : Uint128        = uint128_zero
field tmp_ssn_addr_in                   : ByStr20        = bystr20_zero
field tmp_ssn_addr_out                  : ByStr20        = bystr20_zero
field tmp_bnum                          : BNum           = BNum 0
(* flag of existence ssnlist.deposit_amt_deleg[deleg] *)
field ";
"tmp_deleg_exists                  : Bool           = False

field local_bnum_req                    : Uint128        = Uint128 35000
field local_lastrewardcycle             : Uint32         = uint32_one

(************************************************************)
(* @dev: Procedures                                         *)
(************************************************************)

procedure ThrowError(err: Error)
  e = make_error err;
  throw e
end

procedure RequireAdmin()
  contracta";
"dmin_tmp <- admin_address;
  is_admin = builtin eq _sender contractadmin_tmp;
  match is_admin with
  | True  =>
  | False =>
    e = AdminValidationFailed;
    ThrowError e
  end
end

procedure RequireOwner()
  owner <- owner_address;
  is_owner = builtin eq _sender owner;
  match is_owner with
  | True  =>
  | False =>
    e = CodeNotOwner;
    ThrowError e
  end
end

procedure RequireNotPausedIn()
  paused <- is_paused_in;
  match paused with
  | False =>
  | True =>
    error = PausedIn;
   ";
" ThrowError error
  end
end

procedure RequireNotPausedOut()
  paused <- is_paused_out;
  match paused with
  | False =>
  | True =>
    error = PausedOut;
    ThrowError error
  end
end

procedure RequireNotPausedZrc2()
  paused <- is_paused_zrc2;
  match paused with
  | False =>
  | True =>
    error = PausedZrc2;
    ThrowError error
  end
end

procedure RequireBuffers(buffers: List ByStr20)
  llen = list_bystr20_length buffers;
  buffers_empty = builtin eq uint32_zero llen;
  match buffers_e";
"mpty with
  | True =>
    error = BuffersEmpty;
    ThrowError error
  | False =>
  end
end

procedure RequireBuffer(address: ByStr20)
  buffers_addrs <- buffers_addresses;
  is_buffer = is_addr_in_list buffers_addrs address;
  match is_buffer with
  | True =>
  | False =>
    e = BufferAddrUnknown;
    ThrowError e
  end
end

procedure RequireNotDrainedBuffer(buffer_addr: ByStr20, cycle: Uint32)
  o_buffer_cycle <- buffer_drained_cycle[buffer_addr];
  match o_buffer_cycle with
  | Some buffer_c";
"ycle =>
    is_not_drained = builtin lt buffer_cycle cycle;
    match is_not_drained with
    | True =>
    | False =>
      e = BufferAlreadyDrained;
      ThrowError e
    end
  | None =>
  end
end

procedure RequireDrainedBuffer(buffer_addr: ByStr20, cycle: Uint32)
  o_buffer_cycle <- buffer_drained_cycle[buffer_addr];
  match o_buffer_cycle with
  | Some buffer_cycle =>
    is_not_drained = builtin lt buffer_cycle cycle;
    match is_not_drained with
    | True =>
      e = BufferNotDrained;";
"
      ThrowError e
    | False =>
    end
  | None =>
    e = BufferNotDrained;
    ThrowError e
  end
end

procedure RequireBufferOrHolder(address: ByStr20)
  buffers_addrs <- buffers_addresses;
  is_buffer = is_addr_in_list buffers_addrs address;

  holder <- holder_address;
  is_holder = builtin eq address holder;

  is_buffer_or_holder = orb is_buffer is_holder;

  match is_buffer_or_holder with
  | True  =>
  | False =>
    e = BufferOrHolderValidationFailed;
    ThrowError e
  end
end

pr";
"ocedure RequireSsnAddresses(ssnlist: List ByStr20)
  llen = list_bystr20_length ssnlist;
  list_empty = builtin eq uint32_zero llen;
  match list_empty with
  | True =>
    error = SsnAddressesEmpty;
    ThrowError error
  | False =>
  end
end

procedure TransferFunds(tag: String, amt: Uint128, recipient: ByStr20)
  msg = {_tag: tag; _recipient: recipient; _amount: amt};
  msgs = one_msg msg;
  send msgs
end

(* get active ssn address by counter; save address to tmp field; increment counter *)
p";
"rocedure GetSsnAddressForInput()
  var_ssn_addresses <- ssn_addresses;
  var_ssn_index <- ssn_index;
  active_ssn_addr = get_active_ssn_addr var_ssn_addresses var_ssn_index;
  tmp_ssn_addr_in := active_ssn_addr;
  new_ssn_index = builtin add var_ssn_index uint128_one;
  ssn_index := new_ssn_index
end

procedure GetSsnAddressForOutput(withdraw_amount: Uint128)
  implAddr <- zimpl_address;
  implAddrTypeTest <- & implAddr as ByStr20 with contract
    field deposit_amt_deleg: Map ByStr20 (Map ByStr";
"20 Uint128)
  end;
  match implAddrTypeTest with
  | Some z =>
    var_holder_addr <- holder_address;
    o_deposit_amt_holder <- & z.deposit_amt_deleg[var_holder_addr];
    match o_deposit_amt_holder with
    | Some map_ssn_amount =>
      (* holder has some deposits *)
      ssn_whitelist <- ssn_addresses;
      o_ssnaddr = get_heaviest map_ssn_amount ssn_whitelist withdraw_amount;
      match o_ssnaddr with
      | Some ssnaddr =>
        (* heaviest ssnaddress found *)
        tmp_ssn_addr_o";
"ut := ssnaddr
      | None =>
        (* address that meets withdrawal request requirements was not found *)
        e = WithdrawAmountTooBig;
        ThrowError e
      end
    | None =>
      (* holder has no deposits, it's almost impossible case *)
      e = WithdrawAmountTooBig;
      ThrowError e
    end
  | None =>
      e = CantFetchZimplHolderStakes;
      ThrowError e
  end
end

(* fetch state fields from ssnlist contract *)
procedure FetchRemoteZimplFields()
  implAddr <- zimpl_address";
";
  implAddrTypeTest <- & implAddr as ByStr20 with contract field bnum_req : Uint128, field lastrewardcycle: Uint32 end;
  match implAddrTypeTest with
  | Some z =>
    bnum_req <- & z.bnum_req;
    local_bnum_req := bnum_req;
    lrc <- & z.lastrewardcycle;
    local_lastrewardcycle := lrc
  | None =>
    e = CantFetchZimplFields;
    ThrowError e
  end
end

(* check if delegator address exists at deposit_amt_deleg map of ssnlist contract *)
procedure FetchZimplDelegExists(deleg: ByStr20)
  imp";
"lAddr <- zimpl_address;
  implAddrTypeTest <- & implAddr as ByStr20 with contract
    field deposit_amt_deleg: Map ByStr20 (Map ByStr20 Uint128),
    field lastrewardcycle: Uint32
  end;
  match implAddrTypeTest with
  | Some z =>
    lrc <- & z.lastrewardcycle;
    local_lastrewardcycle := lrc;
    o_deposit_amt_deleg <- & z.deposit_amt_deleg[deleg];
    match o_deposit_amt_deleg with
    | Some amt =>
      tmp_deleg_exists := true
    | None =>
      tmp_deleg_exists := false
    end
  | None";
" =>
      e = CantFetchZimplDelegExists;
      ThrowError e
  end
end

(* procedure checks existence of ssnlist.deposit_amt_deleg[deleg][ssnaddr] and throw error if not found *)
(* it's used in rewards claiming process *)
procedure RequireZimplDelegSsnExists(deleg: ByStr20, ssnaddr: ByStr20)
  implAddr <- zimpl_address;
  implAddrTypeTest <- & implAddr as ByStr20 with contract
    field deposit_amt_deleg: Map ByStr20 (Map ByStr20 Uint128)
  end;
  match implAddrTypeTest with
  | Some z =>
    o_";
"deposit_amt_deleg <- & z.deposit_amt_deleg[deleg][ssnaddr];
    match o_deposit_amt_deleg with
    | Some amt =>
      (* ssnlist map entry found, we can claim rewards safely *)
    | None =>
      e = DelegDoesNotExistAtSSN;
      ThrowError e
    end
  | None =>
      e = CantFetchZimplDelegSsnExists;
      ThrowError e
  end
end

(************************************************************)
(* @dev: Holder & Buffer actions                            *)
(**************************************";
"**********************)

procedure HolderWithdrawStakeAmt(ssnaddr: ByStr20, amount: Uint128)
  holder_addr <- holder_address;
  msg = {_tag: ""WithdrawStakeAmt""; _recipient: holder_addr; _amount: uint128_zero; ssnaddr: ssnaddr; amount: amount};
  msgs = one_msg msg;
  send msgs
end

procedure BufferConfirmDelegatorSwap(buffer_addr: ByStr20, requestor: ByStr20)
  msg = { _tag: ""ConfirmDelegatorSwap""; _recipient: buffer_addr; _amount: uint128_zero; requestor: requestor };
  msgs = one_msg msg;
  se";
"nd msgs
end

procedure BufferRejectDelegatorSwap(buffer_addr: ByStr20, requestor: ByStr20)
  msg = { _tag: ""RejectDelegatorSwap""; _recipient: buffer_addr; _amount: uint128_zero; requestor: requestor };
  msgs = one_msg msg;
  send msgs
end

procedure HolderCompleteWithdrawal()
  holder_addr <- holder_address;
  msg = { _tag: ""CompleteWithdrawal""; _recipient: holder_addr; _amount: uint128_zero };
  msgs = one_msg msg;
  send msgs
end

procedure BufferReDelegate(buffer_addr: ByStr20, ssnaddr: BySt";
"r20, to_ssn: ByStr20, amount: Uint128)
  msg = { _tag: ""ReDelegateStake""; _recipient: buffer_addr; _amount: uint128_zero; ssnaddr: ssnaddr; to_ssn: to_ssn; amount: amount };
  msgs = one_msg msg;
  send msgs
end

(* @dev : To delegate the stake to the contract through buffer. *)
procedure BufferDelegate(amount: Uint128)
  FetchRemoteZimplFields;
  cycle <- local_lastrewardcycle;
  buffer_addrs <- buffers_addresses;
  buffer_addr = get_active_buffer_addr buffer_addrs cycle;

  GetSsnAddressForInp";
"ut;
  ssnaddr <- tmp_ssn_addr_in;

  msg = {_tag: ""DelegateStake""; _recipient: buffer_addr; _amount: amount; ssnaddr: ssnaddr};
  msgs = one_msg msg;
  send msgs
end

procedure ClaimRewardsProc(deleg: ByStr20, ssnaddr: ByStr20)
  RequireZimplDelegSsnExists deleg ssnaddr;
  msg = { _tag: ""ClaimRewards""; _recipient: deleg; _amount: uint128_zero; ssnaddr: ssnaddr };
  msgs = one_msg msg;
  send msgs
end

procedure RequestDelegatorSwap(from: ByStr20, to: ByStr20)
  msg = { _tag: ""RequestDelegatorSwa";
"p""; _recipient: from; _amount: uint128_zero; new_deleg_addr: to};
  msgs = one_msg msg;
  send msgs
end

procedure ConfirmDelegatorSwap(from: ByStr20, to: ByStr20)
  msg = { _tag: ""ConfirmDelegatorSwap""; _recipient: to; _amount: uint128_zero; requestor: from};
  msgs = one_msg msg;
  send msgs
end

(************************************************************)
(* @dev: stZIL actions                                       *)
(************************************************************)

procedure";
" IsDelegStakeSufficient(amount: Uint128)
  mindelegstake_l <- mindelegstake;
  suffi =  uint128_le mindelegstake_l amount;
  match suffi with
  | True =>
  | False =>
    e = DelegStakeNotEnough;
    ThrowError e
  end
end

procedure IncreaseTotalStakeAmt(amt: Uint128)
  total_stake_amt <- totalstakeamount;
  new_total_amt = builtin add total_stake_amt amt;
  totalstakeamount := new_total_amt
end

procedure IncreaseTotalSupplyAmt(amt: Uint128)
  total_supply_amt <- total_supply;
  new_total_amt ";
"= builtin add total_supply_amt amt;
  total_supply := new_total_amt
end

procedure IncreaseAutoRestakeAmt(amt: Uint128)
  auto_restake_amt <- autorestakeamount;
  new_total_amt = builtin add auto_restake_amt amt;
  autorestakeamount := new_total_amt
end

procedure DecreaseTotalStakeAmt(amt: Uint128)
  current_amt <- totalstakeamount;
  valid = uint128_le amt current_amt;
  match valid with
  | True =>
    new_amt = builtin sub current_amt amt;
    totalstakeamount := new_amt
  | False =>
    e =";
" InvalidTotalAmt;
    ThrowError e
  end
end

procedure DecreaseTotalSupplyAmt(amt: Uint128)
  current_amt <- total_supply;
  valid = uint128_le amt current_amt;
  match valid with
  | True =>
    new_amt = builtin sub current_amt amt;
    total_supply := new_amt
  | False =>
    e = InvalidTotalAmt;
    ThrowError e
  end
end

procedure TruncateDeleg(deleg: ByStr20)
  delete balances[deleg]
end

(* newTokens = amount * total_supply / totalstakeamount *)
procedure UpdateTokenBalance(initiator: B";
"yStr20, stake_amt: Uint128)
  total_supply_amt <- total_supply;
  current_stake_amt <- totalstakeamount;

  first_delegation = builtin eq total_supply_amt uint128_zero;
  token_amt =
    match first_delegation with
    | True => stake_amt
    | False => muldiv stake_amt total_supply_amt current_stake_amt
    end;

  current_token_amount <- balances[initiator];
  match current_token_amount  with
  | Some current_token_amt =>
    new_current_token_amt = builtin add current_token_amt token_amt;
   ";
" balances[initiator] := new_current_token_amt
  | None =>
    balances[initiator] := token_amt
  end;

  IncreaseTotalStakeAmt stake_amt;
  IncreaseTotalSupplyAmt token_amt;

  (* emit mint event *)
  e = { _eventname: ""Minted""; minter: _this_address; recipient: initiator; amount: token_amt };
  event e

end

procedure RequireValidWithdrawAmount(withdrawal_fee: Uint128, amount: Uint128)
  is_fee_less_than_amount = builtin lt withdrawal_fee amount;

  match is_fee_less_than_amount with
  | True =";
">
    (* Do Nothing *)
  | False =>
    e = WithdrawTokensAmtLessThanFee;
    ThrowError e
  end
end

procedure TakeWithdrawalFee(sender: ByStr20, withdrawal_fee: Uint128)
  is_zero_fees = builtin eq withdrawal_fee uint128_zero;

  match is_zero_fees with
  | True =>
    (* Do nothing *)
  | False =>
    var_withdrawal_fee_address <- withdrawal_fee_address;
    o_current_balance <- balances[var_withdrawal_fee_address];
    current_balance = option_uint128_value o_current_balance;
    new_balance";
" = builtin add current_balance withdrawal_fee;
    balances[var_withdrawal_fee_address] := new_balance;

    e = {_eventname : ""TransferSuccess""; sender : sender; recipient : var_withdrawal_fee_address; amount : withdrawal_fee};
    event e
  end
end

procedure AdjustDeleg(deleg: ByStr20, total_amount: Uint128, withdraw_amount: Uint128)
  sufficient = uint128_le withdraw_amount total_amount;
  match sufficient with
  | True =>
    need_truncate =  builtin eq withdraw_amount total_amount;
    mat";
"ch need_truncate with
    | True =>
      (* Remove all info map recorded for this deleg *)
      TruncateDeleg deleg
    | False =>
      (* Readjust all rest deleg to this cycle *)
      rest_deleg = builtin sub total_amount withdraw_amount;
      (* rest delegate should also meet mindelegstake *)
      IsDelegStakeSufficient rest_deleg;
      TruncateDeleg deleg;
      (* Refer to transition TruncateDeleg, here we don't use Fillin transition because we *)
      (* know they are all empty, and";
" this can reduce some gasfee *)
      balances[deleg] := rest_deleg
    end
  | False =>
    e = DelegHasNoSufficientAmt;
    ThrowError e
  end
end

procedure DoWithdrawal(initiator: ByStr20, from_ssn: ByStr20, withdraw_token_amt: Uint128, withdraw_stake_amt: Uint128)
  current_token_amount <- balances[initiator];

  match current_token_amount with
  | Some current_token_amt =>
    AdjustDeleg initiator current_token_amt withdraw_token_amt;

    (* Illegal withdraw amount could be handled in pr";
"ocedure AdjustDeleg *)

    withdrawal_bnum <- & BLOCKNUMBER;
    withdraw_pending_o <- withdrawal_pending[withdrawal_bnum][initiator];

    (* Upsert pending withdrawal *)
    match withdraw_pending_o with
    | Some (Withdrawal token stake) =>
      new_withdraw_token_amt = builtin add token withdraw_token_amt;
      new_withdraw_stake_amt = builtin add stake withdraw_stake_amt;
      pending_withdrawal = Withdrawal new_withdraw_token_amt new_withdraw_stake_amt;
      withdrawal_pending[withdr";
"awal_bnum][initiator] := pending_withdrawal;
      withdrawal_pending_of_delegator[initiator][withdrawal_bnum] := pending_withdrawal
    | None =>
      pending_withdrawal = Withdrawal withdraw_token_amt withdraw_stake_amt;
      withdrawal_pending[withdrawal_bnum][initiator] := pending_withdrawal;
      withdrawal_pending_of_delegator[initiator][withdrawal_bnum] := pending_withdrawal
    end;

    e = { _eventname: ""WithdrawStakeAmt""; ssn_addr: from_ssn; deleg_address: initiator; withdraw_amoun";
"t:withdraw_token_amt; withdraw_stake_amount:withdraw_stake_amt };
    event e;

    (* Subtract withdrawn amounts from total counters *)
    DecreaseTotalStakeAmt withdraw_stake_amt;
    DecreaseTotalSupplyAmt withdraw_token_amt;

    (* emit burn event *)
    e = { _eventname: ""Burnt""; burner: _this_address; burn_account: initiator; amount: withdraw_token_amt };
    event e;

    (* call Holder contract *)
    HolderWithdrawStakeAmt from_ssn withdraw_stake_amt
  | None =>
    e = DelegDoesNotEx";
"istAtSSN;
    ThrowError e
  end
end

(* We can receive two types of callback: *)
(*   1. Autorestake. We need to increase internal total ZIL balance. *)
(*   2. User delegate. We need to change a user balance  *)
procedure ProcessDelegateStakeSuccessCallBack(delegator: ByStr20, amount: Uint128)
  is_autorestake = builtin eq delegator _this_address;

  match is_autorestake with
  | True =>
    IncreaseTotalStakeAmt amount;
    autorestakeamount := uint128_zero
  | False =>
    UpdateTokenBalance";
" delegator amount;

    (* Reset tmp variables *)
    tmp_stake_delegate_amount := uint128_zero;
    reset_delegator = None {ByStr20};
    tmp_delegator := reset_delegator;


    msg_to_delegator = {_tag : ""DelegateStakeSuccessCallBack""; _recipient : delegator; _amount : uint128_zero; amount : amount};
    msg = one_msg msg_to_delegator;
    send msg
  end
end

(*
  tmp_complete_withdrawal_available += Withdrawal.stake
  withdrawal_unbonded[delegator] += Withdrawal; //create if none
*)
procedure";
" CalculateTotalWithdrawalBlock(deleg_withdrawal: Pair ByStr20 Withdrawal)
  match deleg_withdrawal with
  | Pair delegator withdrawal =>
    match withdrawal with
    | Withdrawal withdraw_token_amt withdraw_stake_amt =>
      (* update total stake withdraw amount *)
      current_amt <- tmp_complete_withdrawal_available;
      current_amt = builtin add current_amt withdraw_stake_amt;
      tmp_complete_withdrawal_available := current_amt;
      (* upsert unbonded withdrawal for delegator *)
   ";
"   withdrawal_unbonded_o <- withdrawal_unbonded[delegator];
      match withdrawal_unbonded_o with
      | Some (Withdrawal token stake) =>
        updated_token = builtin add token withdraw_token_amt;
        updated_stake = builtin add stake withdraw_stake_amt;
        unbonded_withdrawal = Withdrawal updated_token updated_stake;
        withdrawal_unbonded[delegator] := unbonded_withdrawal
      | None =>
        withdrawal_unbonded[delegator] := withdrawal
      end
    end
  end
end

proced";
"ure CleanWithdrawalDeleg(deleg: ByStr20)
  o_withdrawal_pending_of_delegator <- withdrawal_pending_of_delegator[deleg];
  match o_withdrawal_pending_of_delegator with
  | Some var_withdrawal_pending_of_delegator =>
    map_size = builtin size var_withdrawal_pending_of_delegator;
    is_map_empty = builtin eq map_size uint32_zero;
    match is_map_empty with
    | True => (* empty map *)
      delete withdrawal_pending_of_delegator[deleg]
    | False => (* contains other records *)
    end
  | No";
"ne => (* nothing to delete *)
  end
end

procedure DeleteWithdrawalDelegBnum(pair_deleg_bnum: Pair ByStr20 Withdrawal)
  match pair_deleg_bnum with
  | Pair deleg withdrawal =>
    bnum <- tmp_bnum;
    delete withdrawal_pending_of_delegator[deleg][bnum];
    CleanWithdrawalDeleg deleg
  end
end

(*
  foreach withdrawal_pending[bnum] as Pair deleg Withdrawal
  then delete withdrawal_pending[bnum]
*)
procedure CalculateTotalWithdrawal(bnum: BNum)
  map_deleg_amount_o <- withdrawal_pending[bnum];
";
"  match map_deleg_amount_o with
  | Some map_deleg_amount =>
    list_deleg_amount = builtin to_list map_deleg_amount;
    forall list_deleg_amount CalculateTotalWithdrawalBlock;
    tmp_bnum := bnum;
    forall list_deleg_amount DeleteWithdrawalDelegBnum
  | None =>
  end;
  delete withdrawal_pending[bnum]
end

(************************************************************)
(* @dev: Admin actions                                      *)
(***********************************************************";
"*)

transition PauseIn()
  RequireOwner;
  RequireNotPausedIn;

  is_paused_in := true;
  e = { _eventname: ""PauseIn""; is_paused_in: uint32_one };
  event e
end

transition UnPauseIn()
  RequireOwner;

  paused <- is_paused_in;
  match paused with
  | True =>
  | False =>
    error = NotPausedIn;
    ThrowError error
  end;

  var_buffers <- buffers_addresses;
  RequireBuffers var_buffers;
  var_ssn_addresses <- ssn_addresses;
  RequireSsnAddresses var_ssn_addresses;

  is_paused_in := false;
  ";
"e = { _eventname: ""UnPauseIn""; is_paused_in: uint32_zero };
  event e
end

transition PauseOut()
  RequireOwner;
  RequireNotPausedOut;

  is_paused_out := true;
  e = { _eventname: ""PauseOut""; is_paused_out: uint32_one };
  event e
end

transition UnPauseOut()
  RequireOwner;

  paused <- is_paused_out;
  match paused with
  | True =>
  | False =>
    error = NotPausedOut;
    ThrowError error
  end;

  is_paused_out := false;
  e = { _eventname: ""UnPauseOut""; is_paused_out: uint32_zero };
  ev";
"ent e
end

transition PauseZrc2()
  RequireOwner;
  RequireNotPausedZrc2;

  is_paused_zrc2 := true;
  e = { _eventname: ""PauseZrc2""; is_paused_zrc2: uint32_one };
  event e
end

transition UnPauseZrc2()
  RequireOwner;

  paused <- is_paused_zrc2;
  match paused with
  | True =>
  | False =>
    error = NotPausedZrc2;
    ThrowError error
  end;

  is_paused_zrc2 := false;
  e = { _eventname: ""UnPauseZrc2""; is_paused_zrc2: uint32_zero };
  event e
end

transition ChangeAdmin(new_admin: ByStr20)";
"
  RequireOwner;
  var_admin_address <- admin_address;
  admin_address := new_admin;
  e = {_eventname: ""ChangeAdmin""; old_admin: var_admin_address; new_admin: new_admin};
  event e
end

transition ChangeOwner(new_owner: ByStr20)
  RequireOwner;
  var_staging_owner = Some {ByStr20} new_owner;
  staging_owner_address := var_staging_owner;
  var_owner_address <- owner_address;
  e = {_eventname: ""ChangeOwner""; current_owner: var_owner_address; new_owner: new_owner};
  event e
end

transition Claim";
"Owner()
  staging_owner_o <- staging_owner_address;
  match staging_owner_o with
  | Some staging_owner =>
    is_stagingowner = builtin eq staging_owner _sender;
    match is_stagingowner with
    | True =>
      owner_address := _sender;
      tmp_staging_owner = None {ByStr20};
      staging_owner_address := tmp_staging_owner;
      e = {_eventname: ""ClaimOwner""; new_owner: _sender};
      event e
    | False =>
      e = StagingOwnerValidationFailed;
      ThrowError e
    end
  | None =>
  ";
"  e = StagingOwnerNotExists;
    ThrowError e
  end
end

transition ChangeTreasuryAddress(address: ByStr20)
  RequireOwner;
  treasury_address := address
end


transition ChangeWithdrawalFeeAddress(address: ByStr20)
  RequireOwner;
  withdrawal_fee_address := address
end

transition SetHolderAddress(address: ByStr20)
  RequireOwner;
  var_holder_addr <- holder_address;
  is_holder_empty = builtin eq var_holder_addr bystr20_zero;
  match is_holder_empty with
  | True =>
    holder_address := addr";
"ess;
    e = { _eventname: ""SetHolderAddress""; address: address };
    event e
  | False =>
    e = HolderAlreadySet;
    ThrowError e
  end
end

transition ChangeZimplAddress(address: ByStr20)
  RequireOwner;
  zimpl_address := address;
  e = { _eventname: ""ChangeZimplAddress""; address: address };
  event e
end

transition ChangeBuffers(new_buffers: List ByStr20)
  RequireOwner;
  RequireBuffers new_buffers;
  buffers_addresses := new_buffers
end

transition AddSSN(ssnaddr: ByStr20)
  RequireOw";
"ner;
  var_ssn_addresses <- ssn_addresses;
  is_whitelisted = is_addr_in_list var_ssn_addresses ssnaddr;
  match is_whitelisted with
  | True =>
    e = SsnAddressExists;
    ThrowError e
  | False =>
  end;
  new_list = Cons {ByStr20} ssnaddr var_ssn_addresses;
  ssn_addresses := new_list
end

transition RemoveSSN(ssnaddr: ByStr20)
  RequireOwner;
  var_ssn_addresses <- ssn_addresses;
  is_whitelisted = is_addr_in_list var_ssn_addresses ssnaddr;
  match is_whitelisted with
  | True =>
      new";
"_list = remove_addr_from_list ssnaddr var_ssn_addresses;
      var_is_paused_in <- is_paused_in;
      match var_is_paused_in with
      | True =>
        (* in-operations are paused, it's safe to set ssn_addresses to empty list *)
      | False =>
        (* in-operations aren't paused, so ssn addresses list must not be empty *)
        RequireSsnAddresses new_list
      end;
      ssn_addresses := new_list
  | False =>
    e = SsnAddressDoesNotExist;
    ThrowError e
  end
end

transition Clai";
"mRewards(buffer_or_holder: ByStr20, ssn: ByStr20)
  RequireAdmin;
  RequireBufferOrHolder buffer_or_holder;
  ClaimRewardsProc buffer_or_holder ssn
end

(* transfer stake from buffer to holder; should be called after claiming rewards from buffer/holder *)
transition ConsolidateInHolder(buffer_addr: ByStr20)
  RequireAdmin;
  RequireBuffer buffer_addr;
  (* RequireClaimedRewards? *)

  FetchZimplDelegExists buffer_addr; (* we're sure that holder exists there *)
  (* local_lastrewardcycle updated ";
"in FetchZimplDelegExists *)
  lrc <- local_lastrewardcycle;
  RequireNotDrainedBuffer buffer_addr lrc;
  var_buffer_exists <- tmp_deleg_exists;
  match var_buffer_exists with
  | True =>
    holder_addr <- holder_address;
    RequestDelegatorSwap buffer_addr holder_addr;
    ConfirmDelegatorSwap buffer_addr holder_addr;
    tmp_deleg_exists := false
  | False =>
  end;
  (* Buffer does not exist is a possible and correct case if no one staked ZIL in the current cycle. *)
  (* We still should mar";
"k the buffer as drained at the cycle. *)
  buffer_drained_cycle[buffer_addr] := lrc
end

transition ClaimRewardsSuccessCallBack()
  RequireBufferOrHolder _sender;
  accept;

  (* take fee from rewards *)
  var_rewards_fee <- rewards_fee;
  var_treasury_addr <- treasury_address;
  rewards_fee_value = muldiv var_rewards_fee _amount fee_denom;
  TransferFunds addfunds_tag rewards_fee_value var_treasury_addr;
  after_fee = builtin sub _amount rewards_fee_value;

  IncreaseAutoRestakeAmt after_fee
en";
"d

(* offchain-tools calls this transition every new cycle *)
transition PerformAutoRestake()
  RequireAdmin;

  auto_restake_amt <- autorestakeamount;
  IsDelegStakeSufficient auto_restake_amt;

  is_zero = builtin eq auto_restake_amt uint128_zero;
  match is_zero with
  | True =>
  | False =>
    tmp_stake_delegate_amount := auto_restake_amt;
    o_delegator = Some {ByStr20} _this_address;
    tmp_delegator := o_delegator;

    BufferDelegate auto_restake_amt
  end
end

transition IncreaseAuto";
"RestakeAmount()
  RequireAdmin;
  accept;
  amount = _amount;

  IncreaseAutoRestakeAmt amount;

  e = { _eventname: ""IncreaseAutoRestakeAmount""; amount: amount };
  event e
end

(* @dev: Set the staking parameters of contract. *)
transition UpdateStakingParameters(new_mindelegstake: Uint128, new_rewards_fee: Uint128, new_withdrawal_fee: Uint128)
  RequireOwner;

  is_valid_fee = uint128_le new_rewards_fee fee_denom;
  match is_valid_fee with
  | False =>
    e = InvalidRewardsFee;
    ThrowErro";
"r e
  | True =>
    rewards_fee := new_rewards_fee
  end;

  mindelegstake := new_mindelegstake;
  withdrawal_fee := new_withdrawal_fee;

  e = { _eventname: ""UpdateStakingParameters""; mindelegstake: new_mindelegstake; rewards_fee: new_rewards_fee; withdrawal_fee: new_withdrawal_fee };
  event e
end

(************************************************************)
(* @dev: Deposit undelegated zil, use our node              *)
(************************************************************)
procedure";
" DelegateStake_()
  RequireNotPausedIn;

  accept;
  stake_amt = _amount;

  IsDelegStakeSufficient stake_amt;

  tmp_stake_delegate_amount := stake_amt;
  o_delegator = Some {ByStr20} _sender;
  tmp_delegator := o_delegator;

  BufferDelegate stake_amt
end

transition DelegateStake()
  DelegateStake_
end

transition DelegateStakeWithReferral(referral: ByStr20)
  DelegateStake_;

  e = { _eventname: ""DelegateStakeWithReferral""; referral: referral; amount: _amount };
  event e
end

transition Del";
"egateStakeSuccessCallBack(amount: Uint128)
  RequireBufferOrHolder _sender;

  stake_delegate_amt <- tmp_stake_delegate_amount;
  o_delegator <- tmp_delegator;

  amount_eq = builtin eq amount stake_delegate_amt;

  match amount_eq with
  | False =>
    e = DelegStakeFundsMismatch;
    ThrowError e
  | True =>
    match o_delegator with
    | Some delegator =>
      ProcessDelegateStakeSuccessCallBack delegator amount;

      e = { _eventname: ""DelegateStake""; delegator: delegator; amount: amoun";
"t };
      event e
    | None =>
      e = DelegAddrUnknown;
      ThrowError e
    end
  end
end

(********************************************************************************)
(*                    ClaimWithdrawal Flow                                      *)
(*                                                                              *)
(* 1) Offchain worker calls stZIL->ClaimWithdrawal()                            *)
(* 1) stZIL calls Holder->CompleteWithdrawal()                       ";
"           *)
(* 2) Holder calls Zproxy->CompleteWithdrawal()                                 *)
(* 3) Zimpl do its work, then few options are possible:                         *)
(*   a) it issues NoPendingWithdrawal event                                     *)
(*   b) it calls back Holder->CompleteWithdrawalNoUnbondedStakeCallBack()       *)
(*   c) it calls subsequentally:                                                *)
(*     * Holder->AddFunds(_amount), Holder should accept it            ";
"         *)
(*     * Holder->CompleteWithdrawalSuccessCallBack(amount),                     *)
(* In case of (3c):                                                             *)
(*                                                                              *)
(* 1) Holder calls stZIL->CompleteWithdrawalSuccessCallBack(_amount)            *)
(* 2) stZIL accepts; then check _amount with tmp_complete_withdrawal_available  *)
(*   a) OK => workflow finished                                          ";
"       *)
(*   b) ERROR => exception                                                      *)
(*                                                                              *)
(* Completely successful chaincall will looks like                              *)
(* Worker->stZIL->Holder->Zproxy->Zimpl->Holder->stZIL                          *)
(*                                                                              *)
(**************************************************************************";
"******)

transition ClaimWithdrawal(blocks_to_withdraw: List BNum)
  FetchRemoteZimplFields;

  current_bnum <- & BLOCKNUMBER;
  current_bnum_req <- local_bnum_req;
  unbonded = leave_unbonded current_bnum current_bnum_req blocks_to_withdraw;

  tmp_complete_withdrawal_available := uint128_zero;

  forall unbonded CalculateTotalWithdrawal;

  withdraw_stake_amt <- tmp_complete_withdrawal_available;
  zero_withdraw = builtin eq withdraw_stake_amt uint128_zero;
  match zero_withdraw with
  | True ";
"=>
    e = ClaimWithdrawalNoUnbonded;
    ThrowError e
  | False =>
    (* there is something ready to withdraw completely, so we'll start the flow *)
    HolderCompleteWithdrawal
  end
end

(* @param amount: Amount of tokens to withdraw, ZIL stake amount to withdraw will be calculated basing on this parameter *)
transition WithdrawTokensAmt(amount: Uint128)
  RequireNotPausedOut;

  (* Handle withdrawal fee *)
  var_withdrawal_fee <- withdrawal_fee;
  RequireValidWithdrawAmount var_withdrawal_f";
"ee amount;
  TakeWithdrawalFee _sender var_withdrawal_fee;
  withdraw_token_amt = builtin sub amount var_withdrawal_fee;

  (* Calculate token to zil to withdraw *)
  total_supply_amt <- total_supply;
  total_stake_amt <- totalstakeamount;
  withdraw_stake_amt = muldiv withdraw_token_amt total_stake_amt total_supply_amt;

  GetSsnAddressForOutput withdraw_stake_amt;
  ssnaddr <- tmp_ssn_addr_out;
  (* first we do all checks, then call Holder on success within procedure *)
  DoWithdrawal _sender ";
"ssnaddr withdraw_token_amt withdraw_stake_amt;

  msg_to_delegator = {_tag : ""WithdrawTokensAmtSuccessCallBack""; _recipient : _sender; _amount : uint128_zero;
    ssnaddr : ssnaddr; amount : withdraw_token_amt};
  msg = one_msg msg_to_delegator;
  send msg
end

(* @param amount: Amount of ZIL to withdraw, stZIL stake amount to withdraw will be calculated basing on this parameter *)
(* Needed as a slashing on the protocol level. Withdrawal fee does not apply *)
transition SlashSSN(withdraw_stake_";
"amt: Uint128, ssnaddr: ByStr20)
  RequireAdmin;

  (* Calculate zil to token to withdraw *)
  total_supply_amt <- total_supply;
  total_stake_amt <- totalstakeamount;
  amount = muldiv withdraw_stake_amt total_supply_amt total_stake_amt;

  (* first we do all checks, then call Holder on success within procedure *)
  DoWithdrawal _sender ssnaddr amount withdraw_stake_amt;

  msg_to_delegator = {_tag : ""WithdrawTokensAmtSuccessCallBack""; _recipient : _sender; _amount : uint128_zero;
    ssnaddr : ";
"ssnaddr; amount : amount};
  msg = one_msg msg_to_delegator;
  send msg
end

transition CompleteWithdrawal()
  RequireNotPausedOut;

  wu <- withdrawal_unbonded[_sender];
  match wu with
  | Some (Withdrawal wtoken wstake) =>
    delete withdrawal_unbonded[_sender];
    e = { _eventname: ""CompleteWithdrawal""; delegator: _sender; amount: wstake };
    event e;
    TransferFunds addfunds_tag wstake _sender;
    msg_to_delegator = {_tag : ""CompleteWithdrawalSuccessCallBack""; _recipient : _sender; _";
"amount : uint128_zero;
      amount : wstake};
    msg = one_msg msg_to_delegator;
    send msg
  | None =>
    msg_to_delegator = {_tag : ""CompleteWithdrawalNoUnbondedStakeCallBack""; _recipient : _sender; _amount : uint128_zero;
    amount : uint128_zero};
    msg = one_msg msg_to_delegator;
    send msg;
    e = { _eventname: ""NoUnbondedStake"" };
    event e
  end
end

transition CompleteWithdrawalSuccessCallBack()
  RequireBufferOrHolder _sender;

  accept;
  amount = _amount;

  (* check stZ";
"IL-calculated withdrawal amount against of Zimpl *)
  withdraw_amt <- tmp_complete_withdrawal_available;
  amount_eq = builtin eq withdraw_amt amount;
  match amount_eq with
  | False =>
    e = { _eventname: ""CompleteWithdrawalFundsMismatch""; amountStZil: withdraw_amt; amounthZimpl: amount };
    event e;
    e = CompleteWithdrawalFundsMismatch;
    ThrowError e
  | True =>
  end;

  tmp_complete_withdrawal_available := uint128_zero

end

(* confirms delegator's swap; could by called by anyone ";
"*)
transition ChownStakeConfirmSwap(delegator: ByStr20)
  RequireNotPausedIn;
  var_zimpl_address <- zimpl_address;

  o_zimpl_addr_test <- & var_zimpl_address as ByStr20 with contract
    field deleg_swap_request: Map ByStr20 ByStr20,
    field withdrawal_pending: Map ByStr20 (Map BNum Uint128),
    field deposit_amt_deleg: Map ByStr20 (Map ByStr20 Uint128),
    field lastrewardcycle: Uint32
  end;

  match o_zimpl_addr_test with
  | Some zimpl =>

    (* delegator must call RequestDelegatorSwa";
"p before *)
    o_deleg_swap_request <- & zimpl.deleg_swap_request[delegator];
    match o_deleg_swap_request with
    | Some new_deleg =>

      (* new_deleg must be stZIL buffer *)
      var_buffers_addresses <- buffers_addresses;
      is_buffer = is_addr_in_list var_buffers_addresses new_deleg;
      match is_buffer with
      | False =>
        e = BufferAddrUnknown;
        ThrowError e
      | True => (* nop *)
      end;

      (* new_deleg must be next buffer *)
      cycle <- & zimpl.l";
"astrewardcycle;
      next_cycle = builtin add cycle uint32_one;
      next_buffer = get_active_buffer_addr var_buffers_addresses next_cycle;

      (* new_deleg must be next buffer *)
      is_next_buffer = builtin eq new_deleg next_buffer;
      match is_next_buffer with
      | False =>
        (* we'll confirm swap requests only for next buffer, reject other *)
        BufferRejectDelegatorSwap new_deleg delegator

      | True =>

        (* throw error if next buffer has not been drained s";
"till *)
        (* we'll confirm swap later *)
        RequireDrainedBuffer next_buffer cycle;

        (* delegator must have no pending withdrawals *)
        o_withdrawal <- & zimpl.withdrawal_pending[delegator];
        match o_withdrawal with
        | Some withdrawal =>
          (* reject swap for delegator with pending withdrawals*)
          BufferRejectDelegatorSwap new_deleg delegator

        | None =>

          (* sum delegator's stakes for each ssn, update token balance *)
       ";
"   o_deposit_amt_deleg <- & zimpl.deposit_amt_deleg[delegator];
          match o_deposit_amt_deleg with
          | Some map_ssn_amt =>
            BufferConfirmDelegatorSwap new_deleg delegator;
            total_redeleg_amt = sum_amount map_ssn_amt;
            UpdateTokenBalance delegator total_redeleg_amt
          | None =>
            (* reject swap for delegator without deposits *)
            BufferRejectDelegatorSwap new_deleg delegator
          end

        end
      end

    | None ";
"=>
      e = ChownStakeSwapRequestNotFound;
      ThrowError e
    end

  | None =>
    e = ChownStakeCantFetchRemote;
    ThrowError e
  end
end

(* transfers funds from other ssn to active ssn *)
transition ChownStakeReDelegate(from_ssn: ByStr20, amount: Uint128)
  RequireAdmin;

  var_ssn_addresses <- ssn_addresses;
  is_whitelisted = is_addr_in_list var_ssn_addresses from_ssn;
  match is_whitelisted with
  | True =>
    (* we won't redelegate amount from whitelisted address *)
      e = { _e";
"ventname: ""ChownStakeReDelegateSkip""; from_ssn: from_ssn; amount: amount };
      event e
  | False =>
    GetSsnAddressForInput;
    ssnaddr <- tmp_ssn_addr_in;

    FetchRemoteZimplFields;

    var_buffers_addresses <- buffers_addresses;
    lrc <- local_lastrewardcycle;
    active_buffer = get_active_buffer_addr var_buffers_addresses lrc;

    (* ClaimRewardsProc may throw error in case of absence ssnlist.deposit_amt_deleg[active_buffer][from_ssn] entry *)
    (* it's safe: ReDelegate procedu";
"re has no sense in that case; ssnlist will throw same DelegDoesNotExistAtSSN error *)
    ClaimRewardsProc active_buffer from_ssn;
    BufferReDelegate active_buffer from_ssn ssnaddr amount
  end
end

(***************************************)
(*      Fungible Token Transitions     *)
(***************************************)

procedure RequireNotSender(address: ByStr20)
  is_sender = builtin eq _sender address;
  match is_sender with
  | True =>
    err = CodeIsSender;
    ThrowError err
  | Fal";
"se =>
  end
end

procedure AuthorizedMoveIfSufficientBalance(from: ByStr20, to: ByStr20, amount: Uint128)
  o_from_bal <- balances[from];
  bal = option_uint128_value o_from_bal;
  can_do = uint128_le amount bal;
  match can_do with
  | True =>
    (* Subtract amount from from and add it to to address *)
    new_from_bal = builtin sub bal amount;
    balances[from] := new_from_bal;
    (* Adds amount to to address *)
    get_to_bal <- balances[to];
    new_to_bal = match get_to_bal with
    | So";
"me bal => builtin add bal amount
    | None => amount
    end;
    balances[to] := new_to_bal
  | False =>
    (* Balance not sufficient *)
    err = CodeInsufficientFunds;
    ThrowError err
  end
end

(* @dev: Increase the allowance of an approved_spender over the caller tokens. Only token_owner allowed to invoke.   *)
(* param spender:      Address of the designated approved_spender.                                                   *)
(* param amount:       Number of tokens to be increased a";
"s allowance for the approved_spender.                       *)
transition IncreaseAllowance(spender: ByStr20, amount: Uint128)
  RequireNotPausedZrc2;
  RequireNotSender spender;
  some_current_allowance <- allowances[_sender][spender];
  current_allowance = option_uint128_value some_current_allowance;
  new_allowance = builtin add current_allowance amount;
  allowances[_sender][spender] := new_allowance;
  e = {_eventname : ""IncreasedAllowance""; token_owner : _sender; spender: spender; new_allo";
"wance : new_allowance};
  event e
end

(* @dev: Decrease the allowance of an approved_spender over the caller tokens. Only token_owner allowed to invoke. *)
(* param spender:      Address of the designated approved_spender.                                                 *)
(* param amount:       Number of tokens to be decreased as allowance for the approved_spender.                     *)
transition DecreaseAllowance(spender: ByStr20, amount: Uint128)
  RequireNotPausedZrc2;
  RequireNotSender ";
"spender;
  some_current_allowance <- allowances[_sender][spender];
  current_allowance = option_uint128_value some_current_allowance;
  new_allowance =
    let amount_le_allowance = uint128_le amount current_allowance in
      match amount_le_allowance with
      | True => builtin sub current_allowance amount
      | False => uint128_zero
      end;
  allowances[_sender][spender] := new_allowance;
  e = {_eventname : ""DecreasedAllowance""; token_owner : _sender; spender: spender; new_allowance : ";
"new_allowance};
  event e
end

(* @dev: Moves an amount tokens from _sender to the recipient. Used by token_owner. *)
(* @dev: Balance of recipient will increase. Balance of _sender will decrease.      *)
(* @param to:  Address of the recipient whose balance is increased.                 *)
(* @param amount:     Amount of tokens to be sent.                                  *)
transition Transfer(to: ByStr20, amount: Uint128)
  RequireNotPausedZrc2;
  AuthorizedMoveIfSufficientBalance _sender to ";
"amount;
  e = {_eventname : ""TransferSuccess""; sender : _sender; recipient : to; amount : amount};
  event e;
  (* Prevent sending to a contract address that does not support transfers of token *)
  msg_to_recipient = {_tag : ""RecipientAcceptTransfer""; _recipient : to; _amount : uint128_zero;
                      sender : _sender; recipient : to; amount : amount};
  msg_to_sender = {_tag : ""TransferSuccessCallBack""; _recipient : _sender; _amount : uint128_zero;
                  sender : _sende";
"r; recipient : to; amount : amount};
  msgs = two_msgs msg_to_recipient msg_to_sender;
  send msgs
end

(* @dev: Move a given amount of tokens from one address to another using the allowance mechanism. The caller must be an approved_spender. *)
(* @dev: Balance of recipient will increase. Balance of token_owner will decrease.                                                        *)
(* @param from:    Address of the token_owner whose balance is decreased.                                         ";
"                        *)
(* @param to:      Address of the recipient whose balance is increased.                                                                   *)
(* @param amount:  Amount of tokens to be transferred.                                                                                    *)
transition TransferFrom(from: ByStr20, to: ByStr20, amount: Uint128)
  RequireNotPausedZrc2;
  o_spender_allowed <- allowances[from][_sender];
  allowed = option_uint128_value o_spender_allow";
"ed;
  can_do = uint128_le amount allowed;
  match can_do with
  | True =>
    AuthorizedMoveIfSufficientBalance from to amount;
    e = {_eventname : ""TransferFromSuccess""; initiator : _sender; sender : from; recipient : to; amount : amount};
    event e;
    new_allowed = builtin sub allowed amount;
    allowances[from][_sender] := new_allowed;
    (* Prevent sending to a contract address that does not support transfers of token *)
    msg_to_recipient = {_tag: ""RecipientAcceptTransferFrom""; _r";
"ecipient : to; _amount: uint128_zero;
                        initiator: _sender; sender : from; recipient: to; amount: amount};
    msg_to_sender = {_tag: ""TransferFromSuccessCallBack""; _recipient: _sender; _amount: uint128_zero;
                    initiator: _sender; sender: from; recipient: to; amount: amount};
    msgs = two_msgs msg_to_recipient msg_to_sender;
    send msgs
  | False =>
    err = CodeInsufficientAllowance;
    ThrowError err
  end
end
"]%string.

Example src_ByStr_ok : is_ok (run src_ByStr) = true.
Proof. vm_compute. reflexivity. Qed.
Example src_CallTransition_ok : is_ok (run src_CallTransition) = true.
Proof. vm_compute. reflexivity. Qed.
Example src_FungibleToken_ok : is_ok (run src_FungibleToken) = true.
Proof. vm_compute. reflexivity. Qed.
Example src_GetFields_ok : is_ok (run src_GetFields) = true.
Proof. vm_compute. reflexivity. Qed.
Example src_HelloWorld_ok : is_ok (run src_HelloWorld) = true.
Proof. vm_compute. reflexivity. Qed.
Example src_Map_ok : is_ok (run src_Map) = true.
Proof. vm_compute. reflexivity. Qed.
Example src_SendZil_ok : is_ok (run src_SendZil) = true.
Proof. vm_compute. reflexivity. Qed.
Example src_SetGet_ok : is_ok (run src_SetGet) = true.
Proof. vm_compute. reflexivity. Qed.
Example src_StakingContract_ok : is_ok (run src_StakingContract) = true.
Proof. vm_compute. reflexivity. Qed.
Example src_Timestamp_ok : is_ok (run src_Timestamp) = true.
Proof. vm_compute. reflexivity. Qed.
Example src_ZRC1_ok : is_ok (run src_ZRC1) = true.
Proof. vm_compute. reflexivity. Qed.
Example src_ZRC2_ok : is_ok (run src_ZRC2) = true.
Proof. vm_compute. reflexivity. Qed.
Example src_ZRC2Interop_ok : is_ok (run src_ZRC2Interop) = true.
Proof. vm_compute. reflexivity. Qed.
Example src_ZRC6_ok : is_ok (run src_ZRC6) = true.
Proof. vm_compute. reflexivity. Qed.
Example src_chainid_ok : is_ok (run src_chainid) = true.
Proof. vm_compute. reflexivity. Qed.
Example src_multisig_wallet_ok : is_ok (run src_multisig_wallet) = true.
Proof. vm_compute. reflexivity. Qed.
Example src_ssnlist_ok : is_ok (run src_ssnlist) = true.
Proof. vm_compute. reflexivity. Qed.
Example src_staking_proxy_v2_ok : is_ok (run src_staking_proxy_v2) = true.
Proof. vm_compute. reflexivity. Qed.
Example src_stzil_ok : is_ok (run src_stzil) = true.
Proof. vm_compute. reflexivity. Qed.
Example expected_1 : run src_Map = RValue (mkContract (lit "DifferentMaps") [] [(mkField (lit "first_map") (TyMap TyString BNum)); (mkField (lit "status3days") (TyMap TyString (TyPair ByStr20 BNum))); (mkField (lit "reward_pairs") (TyMap ByStr20 (TyList Uint128))); (mkField (lit "user_withdrawal_dict") (TyOption (TyMap BNum Uint128)))] []).
Proof. vm_compute. reflexivity. Qed.
Example expected_2 : run src_ByStr = RValue (mkContract (lit "AllByStrVariants") [(mkField (lit "bystr") ByStr); (mkField (lit "bystr32") (ByStrX 32)); (mkField (lit "raw_address") ByStr20); (mkField (lit "library_address") (ByStr20With (lit "library") [])); (mkField (lit "contract_address") (ByStr20With (lit "contract") [])); (mkField (lit "detailed_contract_address") (ByStr20With (lit "contract") [(mkField (lit "allowances") (TyMap ByStr20 (TyMap ByStr20 Uint128))); (mkField (lit "balances") (TyMap ByStr20 Uint128)); (mkField (lit "total_supply") Uint128)])); (mkField (lit "complex_contract_address") (ByStr20With (lit "contract") [(mkField (lit "implementation") (ByStr20With (lit "contract") [(mkField (lit "services") (TyMap TyString ByStr20)); (mkField (lit "utility") (TyMap TyString Uint128))])); (mkField (lit "dns") (TyMap TyString ByStr20)); (mkField (lit "guardians") (TyMap TyString (ByStr20With (lit "contract") [(mkField (lit "verification_methods") (TyMap TyString (ByStrX 33)))])))]))] [] [(mkTransition (lit "ArbitrageFromXCAD") [(mkField (lit "token") (ByStr20With (lit "contract") [(mkField (lit "balances") (TyMap ByStr20 Uint128))]))]); (mkTransition (lit "BuyNFTUsername") [(mkField (lit "username") TyString); (mkField (lit "guardianship") (TyOption (ByStr20With (lit "contract") [(mkField (lit "verification_methods") (TyMap TyString (ByStrX 33)))]))); (mkField (lit "id") TyString); (mkField (lit "tyron") (TyOption Uint128))])]).
Proof. vm_compute. reflexivity. Qed.
Example expected_3 : run src_Timestamp = RValue (mkContract (lit "Timestamp") [] [] [(mkTransition (lit "EventTimestamp") [(mkField (lit "bnum") BNum)])]).
Proof. vm_compute. reflexivity. Qed.
Example expected_4 : run src_StakingContract = RValue (mkContract (lit "StakingContract") [(mkField (lit "initial_owner") ByStr20); (mkField (lit "initial_staking_token_address") (ByStr20With (lit "contract") [(mkField (lit "allowances") (TyMap ByStr20 (TyMap ByStr20 Uint128))); (mkField (lit "balances") (TyMap ByStr20 Uint128)); (mkField (lit "total_supply") Uint128)]))] [(mkField (lit "owner") ByStr20); (mkField (lit "staking_token_address") ByStr20); (mkField (lit "pending_owner") ByStr20); (mkField (lit "paused") TyBool); (mkField (lit "reward_pairs") (TyMap ByStr20 (TyList (Other (lit "RewardParam"))))); (mkField (lit "stakes") (TyMap ByStr20 (Other (lit "Stake")))); (mkField (lit "rewards") (TyMap ByStr20 (TyMap ByStr20 Uint128))); (mkField (lit "administrators") (TyMap ByStr20 TyBool)); (mkField (lit "treasury_balances") (TyMap ByStr20 Uint128)); (mkField (lit "treasury_fees_address") ByStr20); (mkField (lit "penalty_fee_balances") Uint128); (mkField (lit "total_staked_amount") Uint128)] [(mkTransition (lit "AddStake") [(mkField (lit "amount") Uint128); (mkField (lit "expiration_time") Uint64); (mkField (lit "penalty_fee_bps") Uint128)]); (mkTransition (lit "RemoveStake") [(mkField (lit "amount") Uint128)]); (mkTransition (lit "ClaimRewards") []); (mkTransition (lit "AddRewardToken") [(mkField (lit "reward_token_address") ByStr20); (mkField (lit "apr") Uint128); (mkField (lit "treasury_fee") Uint128)]); (mkTransition (lit "RemoveRewardToken") [(mkField (lit "reward_token_address") ByStr20)]); (mkTransition (lit "RemoveAllRewardTokens") []); (mkTransition (lit "Pause") []); (mkTransition (lit "UnPause") []); (mkTransition (lit "AddAdmin") [(mkField (lit "address") ByStr20)]); (mkTransition (lit "RemoveAdmin") [(mkField (lit "address") ByStr20)]); (mkTransition (lit "TransferOwnership") [(mkField (lit "new_owner") ByStr20)]); (mkTransition (lit "AcceptPendingOwnership") []); (mkTransition (lit "WithdrawTokens") [(mkField (lit "token_address") ByStr20); (mkField (lit "token_amount") Uint128)]); (mkTransition (lit "WithdrawZils") [(mkField (lit "zil_amount") Uint128)]); (mkTransition (lit "Deposit") [(mkField (lit "token_address") ByStr20); (mkField (lit "token_amount") Uint128)]); (mkTransition (lit "TransferFromSuccessCallBack") [(mkField (lit "initiator") ByStr20); (mkField (lit "sender") ByStr20); (mkField (lit "recipient") ByStr20); (mkField (lit "amount") Uint128)]); (mkTransition (lit "TransferSuccessCallBack") [(mkField (lit "sender") ByStr20); (mkField (lit "recipient") ByStr20); (mkField (lit "amount") Uint128)]); (mkTransition (lit "RecipientAcceptTransferFrom") [(mkField (lit "initiator") ByStr20); (mkField (lit "sender") ByStr20); (mkField (lit "recipient") ByStr20); (mkField (lit "amount") Uint128)]); (mkTransition (lit "AddFunds") []); (mkTransition (lit "RecipientAcceptTransfer") [(mkField (lit "sender") ByStr20); (mkField (lit "recipient") ByStr20); (mkField (lit "amount") Uint128)])]).
Proof. vm_compute. reflexivity. Qed.
Example expected_5 : run src_chainid = RValue (mkContract (lit "ChainId") [] [(mkField (lit "dummy_field") Uint256)] [(mkTransition (lit "EventChainID") [])]).
Proof. vm_compute. reflexivity. Qed.
Example expected_6 : run src_HelloWorld = RValue (mkContract (lit "HelloWorld") [(mkField (lit "owner") ByStr20)] [(mkField (lit "welcome_msg") TyString)] [(mkTransition (lit "setHello") [(mkField (lit "msg") TyString)]); (mkTransition (lit "getHello") [])]).
Proof. vm_compute. reflexivity. Qed.
Example expected_7 : run src_GetFields = RValue (mkContract (lit "GetFields") [] [(mkField (lit "field_uint32") Uint32); (mkField (lit "field_uint64") Uint64); (mkField (lit "field_uint128") Uint128); (mkField (lit "field_uint256") Uint256); (mkField (lit "field_int32") Int32); (mkField (lit "field_int64") Int64); (mkField (lit "field_int128") Int128); (mkField (lit "field_bnum") BNum); (mkField (lit "field_string") TyString); (mkField (lit "field_address") ByStr20); (mkField (lit "field_bool_false") TyBool); (mkField (lit "field_bool_true") TyBool); (mkField (lit "field_option_bystr20_none") (TyOption ByStr20)); (mkField (lit "field_option_bystr20_some") (TyOption ByStr20)); (mkField (lit "field_option_int32_some") (TyOption Int32)); (mkField (lit "field_option_bool_some") (TyOption TyBool)); (mkField (lit "field_pair") (TyPair TyString Uint32)); (mkField (lit "balances") (TyMap ByStr20 Uint128)); (mkField (lit "field_list") (TyList Int32))] []).
Proof. vm_compute. reflexivity. Qed.
Example expected_8 : run src_CallTransition = RValue (mkContract (lit "CallTransition") [] [] [(mkTransition (lit "call_uint32") [(mkField (lit "v") Uint32)]); (mkTransition (lit "call_uint64") [(mkField (lit "v") Uint64)]); (mkTransition (lit "call_uint128") [(mkField (lit "v") Uint128)]); (mkTransition (lit "call_uint256") [(mkField (lit "v") Uint256)]); (mkTransition (lit "call_int32") [(mkField (lit "v") Int32)]); (mkTransition (lit "call_int64") [(mkField (lit "v") Int64)]); (mkTransition (lit "call_int128") [(mkField (lit "v") Int128)]); (mkTransition (lit "call_string") [(mkField (lit "v") TyString)]); (mkTransition (lit "call_address") [(mkField (lit "v") ByStr20)]); (mkTransition (lit "call_option_bool") [(mkField (lit "v") (TyOption TyBool))]); (mkTransition (lit "call_bool") [(mkField (lit "v") TyBool)]); (mkTransition (lit "call_bnum") [(mkField (lit "v") BNum)]); (mkTransition (lit "call_pair") [(mkField (lit "v") (TyPair TyString Uint32))]); (mkTransition (lit "call_list") [(mkField (lit "v") (TyList ByStr20))]); (mkTransition (lit "call_list_2") [(mkField (lit "v") (TyList (TyPair ByStr20 (TyList (TyPair ByStr20 Uint32)))))]); (mkTransition (lit "call_list_3") [(mkField (lit "v") (TyList (TyPair TyString TyString)))]); (mkTransition (lit "call_list_4") [(mkField (lit "v") (TyList (TyPair ByStr20 (TyList (TyPair ByStr20 (TyList (TyPair Uint32 Uint128)))))))]); (mkTransition (lit "call_list_5") [(mkField (lit "v") (TyList (TyPair ByStr20 (TyList (TyPair BNum Uint128)))))])]).
Proof. vm_compute. reflexivity. Qed.
Example expected_9 : run src_SendZil = RValue (mkContract (lit "SendZil") [] [(mkField (lit "test_field") Uint256); (mkField (lit "bool") TyBool); (mkField (lit "empty_bool") (TyOption TyBool)); (mkField (lit "some_int") (TyOption Int32)); (mkField (lit "pair") (TyPair TyString Uint32)); (mkField (lit "list") (TyList Int32))] [(mkTransition (lit "acceptZil") []); (mkTransition (lit "updateTestField") [(mkField (lit "val") Uint256)]); (mkTransition (lit "dontAcceptZil") []); (mkTransition (lit "fundUserWithTag") [(mkField (lit "user") ByStr20); (mkField (lit "amount") Uint128)]); (mkTransition (lit "fundUser") [(mkField (lit "user") ByStr20); (mkField (lit "amount") Uint128)]); (mkTransition (lit "fundContract") [(mkField (lit "contract_address") ByStr20); (mkField (lit "amount") Uint128)]); (mkTransition (lit "callOtherContract") [(mkField (lit "contract_address") ByStr20); (mkField (lit "tag") TyString); (mkField (lit "value") Uint256)])]).
Proof. vm_compute. reflexivity. Qed.
Example expected_10 : run src_FungibleToken = RValue (mkContract (lit "FungibleToken") [(mkField (lit "contract_owner") ByStr20); (mkField (lit "name") TyString); (mkField (lit "symbol") TyString); (mkField (lit "decimals") Uint32); (mkField (lit "init_supply") Uint128)] [(mkField (lit "total_supply") Uint128); (mkField (lit "balances") (TyMap ByStr20 Uint128)); (mkField (lit "allowances") (TyMap ByStr20 (TyMap ByStr20 Uint128)))] [(mkTransition (lit "IncreaseAllowance") [(mkField (lit "spender") ByStr20); (mkField (lit "amount") Uint128)]); (mkTransition (lit "DecreaseAllowance") [(mkField (lit "spender") ByStr20); (mkField (lit "amount") Uint128)]); (mkTransition (lit "Transfer") [(mkField (lit "to") ByStr20); (mkField (lit "amount") Uint128)]); (mkTransition (lit "TransferFailed") [(mkField (lit "to") ByStr20); (mkField (lit "amount") Uint128)]); (mkTransition (lit "TransferFrom") [(mkField (lit "from") ByStr20); (mkField (lit "to") ByStr20); (mkField (lit "amount") Uint128)])]).
Proof. vm_compute. reflexivity. Qed.
Example expected_11 : run src_staking_proxy_v2 = RValue (mkContract (lit "SSNListProxy_V2") [(mkField (lit "init_implementation") ByStr20); (mkField (lit "init_admin") ByStr20)] [(mkField (lit "implementation") ByStr20); (mkField (lit "admin") ByStr20); (mkField (lit "stagingadmin") (TyOption ByStr20))] [(mkTransition (lit "UpgradeTo") [(mkField (lit "newImplementation") ByStr20)]); (mkTransition (lit "ChangeProxyAdmin") [(mkField (lit "newAdmin") ByStr20)]); (mkTransition (lit "ClaimProxyAdmin") []); (mkTransition (lit "OptInSSNToConsensusPoolAdminOverride") [(mkField (lit "ssnaddr") ByStr20)]); (mkTransition (lit "OptOutSSNFromConsensusPoolAdminOverride") [(mkField (lit "ssnaddr") ByStr20)]); (mkTransition (lit "RemoveFromConsensusPoolAdminOverride") [(mkField (lit "ssnaddr") ByStr20)]); (mkTransition (lit "ChangeMinCommissionRate") [(mkField (lit "mincommrate_value") Uint128)]); (mkTransition (lit "AddSSNNonStaking") [(mkField (lit "ssnaddr") ByStr20); (mkField (lit "name") TyString); (mkField (lit "urlraw") TyString); (mkField (lit "urlapi") TyString); (mkField (lit "comm") Uint128)]); (mkTransition (lit "AddSSNToConsensusPool") []); (mkTransition (lit "RemoveSSNFromConsensusPool") []); (mkTransition (lit "WithdrawStakeRewardsForCycles") [(mkField (lit "ssnaddr") ByStr20); (mkField (lit "cycles") Uint32)]); (mkTransition (lit "CopySSNDelegAmt") [(mkField (lit "ssn") ByStr20); (mkField (lit "keys") (TyList (TyPair ByStr20 Uint128)))]); (mkTransition (lit "MigrateStakeSSNPerCycle") [(mkField (lit "ssn") ByStr20); (mkField (lit "keys") (TyList (TyPair Uint32 (TyPair Uint128 Uint128))))]); (mkTransition (lit "CopyBuffDepositDeleg") [(mkField (lit "deleg") ByStr20); (mkField (lit "keys") (TyList (TyPair ByStr20 (TyList (TyPair Uint32 Uint128)))))]); (mkTransition (lit "CopyLastBufDepositCycleDelegList") [(mkField (lit "last_buf_deposit_cycle_deleg_list") (TyList (TyPair ByStr20 (TyList (TyPair ByStr20 Uint32)))))]); (mkTransition (lit "CopyLastWithdrawCycleDelegList") [(mkField (lit "last_withdraw_cycle_deleg_list") (TyList (TyPair ByStr20 (TyList (TyPair ByStr20 Uint32)))))]); (mkTransition (lit "CopyDelegStakePerCycleList") [(mkField (lit "deleg_stake_per_cycle_list") (TyList (TyPair ByStr20 (TyList (TyPair ByStr20 (TyList (TyPair Uint32 Uint128)))))))]); (mkTransition (lit "CopyDirectDepositDelegList") [(mkField (lit "direct_deposit_deleg_list") (TyList (TyPair ByStr20 (TyList (TyPair ByStr20 (TyList (TyPair Uint32 Uint128)))))))]); (mkTransition (lit "CopyBuffDepositDelegList") [(mkField (lit "buff_deposit_deleg_list") (TyList (TyPair ByStr20 (TyList (TyPair ByStr20 (TyList (TyPair Uint32 Uint128)))))))]); (mkTransition (lit "CopyDepositAmtDelegList") [(mkField (lit "deposit_amt_deleg_list") (TyList (TyPair ByStr20 (TyList (TyPair ByStr20 Uint128)))))]); (mkTransition (lit "CopyWithDrawalPendingList") [(mkField (lit "withdrawal_pending_list") (TyList (TyPair ByStr20 (TyList (TyPair BNum Uint128)))))]); (mkTransition (lit "CopyCommForSSNList") [(mkField (lit "comm_for_ssn_list") (TyList (TyPair ByStr20 (TyList (TyPair Uint32 Uint128)))))]); (mkTransition (lit "CopyDelegSwapRequest") [(mkField (lit "deleg_swap_request_list") (TyList (TyPair ByStr20 ByStr20)))]); (mkTransition (lit "ChangeCycleRewardsDeleg") [(mkField (lit "input_cycle_rewards_deleg") Uint128)]); (mkTransition (lit "ChangeVerifierReward") [(mkField (lit "input_verifier_reward") Uint128)]); (mkTransition (lit "ChangeAvailableWithdrawal") [(mkField (lit "input_available_withdrawal") Uint128)]); (mkTransition (lit "ChangeCurrentDeleg") [(mkField (lit "input_current_deleg") ByStr20)]); (mkTransition (lit "ChangeCurrentSSN") [(mkField (lit "input_current_ssn") ByStr20)]); (mkTransition (lit "ChangeNewDeleg") [(mkField (lit "input_new_deleg") ByStr20)]); (mkTransition (lit "ChangeVerifier") [(mkField (lit "input_verifier") ByStr20)]); (mkTransition (lit "ChangeVerifierReceivingAddr") [(mkField (lit "input_verifier_receiving_addr") ByStr20)]); (mkTransition (lit "ChangeMinStake") [(mkField (lit "input_minstake") Uint128)]); (mkTransition (lit "ChangeMinDelegStake") [(mkField (lit "input_mindelegstake") Uint128)]); (mkTransition (lit "ChangeLastRewardCycle") [(mkField (lit "input_lastrewardcycle") Uint32)]); (mkTransition (lit "ChangeMaxCommChangeRate") [(mkField (lit "input_maxcommchangerate") Uint128)]); (mkTransition (lit "ChangeMaxCommRate") [(mkField (lit "input_maxcommrate") Uint128)]); (mkTransition (lit "ChangeTotalStakeAmount") [(mkField (lit "input_totalstakeamount") Uint128)])]).
Proof. vm_compute. reflexivity. Qed.
Example expected_12 : run src_stzil = RValue (mkContract (lit "StZIL") [(mkField (lit "contract_owner") ByStr20); (mkField (lit "init_admin_address") ByStr20); (mkField (lit "init_zimpl_address") ByStr20); (mkField (lit "name") TyString); (mkField (lit "symbol") TyString); (mkField (lit "decimals") Uint32); (mkField (lit "init_supply") Uint128)] [(mkField (lit "owner_address") ByStr20); (mkField (lit "admin_address") ByStr20); (mkField (lit "treasury_address") ByStr20); (mkField (lit "withdrawal_fee_address") ByStr20); (mkField (lit "zimpl_address") ByStr20); (mkField (lit "holder_address") ByStr20); (mkField (lit "buffers_addresses") (TyList ByStr20)); (mkField (lit "ssn_addresses") (TyList ByStr20)); (mkField (lit "staging_owner_address") (TyOption ByStr20)); (mkField (lit "is_paused_in") TyBool); (mkField (lit "is_paused_out") TyBool); (mkField (lit "is_paused_zrc2") TyBool); (mkField (lit "mindelegstake") Uint128); (mkField (lit "withdrawal_fee") Uint128); (mkField (lit "rewards_fee") Uint128); (mkField (lit "totalstakeamount") Uint128); (mkField (lit "autorestakeamount") Uint128); (mkField (lit "total_supply") Uint128); (mkField (lit "balances") (TyMap ByStr20 Uint128)); (mkField (lit "allowances") (TyMap ByStr20 (TyMap ByStr20 Uint128))); (mkField (lit "withdrawal_pending") (TyMap BNum (TyMap ByStr20 (Other (lit "Withdrawal"))))); (mkField (lit "withdrawal_pending_of_delegator") (TyMap ByStr20 (TyMap BNum (Other (lit "Withdrawal"))))); (mkField (lit "withdrawal_unbonded") (TyMap ByStr20 (Other (lit "Withdrawal")))); (mkField (lit "buffer_drained_cycle") (TyMap ByStr20 Uint32)); (mkField (lit "ssn_index") Uint128); (mkField (lit "tmp_delegator") (TyOption ByStr20)); (mkField (lit "tmp_stake_delegate_amount") Uint128); (mkField (lit "tmp_complete_withdrawal_available") Uint128); (mkField (lit "tmp_ssn_addr_in") ByStr20); (mkField (lit "tmp_ssn_addr_out") ByStr20); (mkField (lit "tmp_bnum") BNum); (mkField (lit "tmp_deleg_exists") TyBool); (mkField (lit "local_bnum_req") Uint128); (mkField (lit "local_lastrewardcycle") Uint32)] [(mkTransition (lit "PauseIn") []); (mkTransition (lit "UnPauseIn") []); (mkTransition (lit "PauseOut") []); (mkTransition (lit "UnPauseOut") []); (mkTransition (lit "PauseZrc2") []); (mkTransition (lit "UnPauseZrc2") []); (mkTransition (lit "ChangeAdmin") [(mkField (lit "new_admin") ByStr20)]); (mkTransition (lit "ChangeOwner") [(mkField (lit "new_owner") ByStr20)]); (mkTransition (lit "ClaimOwner") []); (mkTransition (lit "ChangeTreasuryAddress") [(mkField (lit "address") ByStr20)]); (mkTransition (lit "ChangeWithdrawalFeeAddress") [(mkField (lit "address") ByStr20)]); (mkTransition (lit "SetHolderAddress") [(mkField (lit "address") ByStr20)]); (mkTransition (lit "ChangeZimplAddress") [(mkField (lit "address") ByStr20)]); (mkTransition (lit "ChangeBuffers") [(mkField (lit "new_buffers") (TyList ByStr20))]); (mkTransition (lit "AddSSN") [(mkField (lit "ssnaddr") ByStr20)]); (mkTransition (lit "RemoveSSN") [(mkField (lit "ssnaddr") ByStr20)]); (mkTransition (lit "ClaimRewards") [(mkField (lit "buffer_or_holder") ByStr20); (mkField (lit "ssn") ByStr20)]); (mkTransition (lit "ConsolidateInHolder") [(mkField (lit "buffer_addr") ByStr20)]); (mkTransition (lit "ClaimRewardsSuccessCallBack") []); (mkTransition (lit "PerformAutoRestake") []); (mkTransition (lit "IncreaseAutoRestakeAmount") []); (mkTransition (lit "UpdateStakingParameters") [(mkField (lit "new_mindelegstake") Uint128); (mkField (lit "new_rewards_fee") Uint128); (mkField (lit "new_withdrawal_fee") Uint128)]); (mkTransition (lit "DelegateStake") []); (mkTransition (lit "DelegateStakeWithReferral") [(mkField (lit "referral") ByStr20)]); (mkTransition (lit "DelegateStakeSuccessCallBack") [(mkField (lit "amount") Uint128)]); (mkTransition (lit "ClaimWithdrawal") [(mkField (lit "blocks_to_withdraw") (TyList BNum))]); (mkTransition (lit "WithdrawTokensAmt") [(mkField (lit "amount") Uint128)]); (mkTransition (lit "SlashSSN") [(mkField (lit "withdraw_stake_amt") Uint128); (mkField (lit "ssnaddr") ByStr20)]); (mkTransition (lit "CompleteWithdrawal") []); (mkTransition (lit "CompleteWithdrawalSuccessCallBack") []); (mkTransition (lit "ChownStakeConfirmSwap") [(mkField (lit "delegator") ByStr20)]); (mkTransition (lit "ChownStakeReDelegate") [(mkField (lit "from_ssn") ByStr20); (mkField (lit "amount") Uint128)]); (mkTransition (lit "IncreaseAllowance") [(mkField (lit "spender") ByStr20); (mkField (lit "amount") Uint128)]); (mkTransition (lit "DecreaseAllowance") [(mkField (lit "spender") ByStr20); (mkField (lit "amount") Uint128)]); (mkTransition (lit "Transfer") [(mkField (lit "to") ByStr20); (mkField (lit "amount") Uint128)]); (mkTransition (lit "TransferFrom") [(mkField (lit "from") ByStr20); (mkField (lit "to") ByStr20); (mkField (lit "amount") Uint128)])]).
Proof. vm_compute. reflexivity. Qed.
