(** The EVMC interface as seen by evmzero: messages, results, transaction context and
    host functions.  The evmc headers are not part of /repo (third_party/evmc is an empty
    submodule); the fields are those used at interpreter.cc:529-1797 and evmzero.cc:124-292.
    Addresses and bytes32 values are represented by the integers they encode (big endian),
    so [ToUint256(bytes32)] / [ToEvmcBytes] (uint256.h:38-39) are the identity on words and
    [ToUint256(address)] is the identity on addresses; byte strings are lists of Z. *)
From Verif Require Import Base.

(** evmc_revision; only the ordering and names used in interpreter.cc matter. *)
Inductive revision : Set :=
| Istanbul | Berlin | London | Paris | Shanghai | Cancun.
(** numeric values of evmc_revision (order preserving). *)
Definition rev_num (r : revision) : Z :=
  match r with
  | Istanbul => 7 | Berlin => 8 | London => 9 | Paris => 10 | Shanghai => 11 | Cancun => 12
  end.
Definition rev_ge (a b : revision) : bool := rev_num b <=? rev_num a.

(** evmc_call_kind (interpreter.cc:1620, 1751-1753) *)
Inductive call_kind : Set := K_CALL | K_DELEGATECALL | K_CALLCODE | K_CREATE | K_CREATE2.

(** evmc_message (interpreter.cc:1619-1629, 1750-1763) *)
Record message : Set := mkMsg {
  msg_kind : call_kind;
  msg_flags : Z;              (* uint32_t; EVMC_STATIC = 1 *)
  msg_depth : Z;              (* int32_t *)
  msg_gas : Z;                (* int64_t *)
  msg_recipient : Z;          (* address *)
  msg_sender : Z;             (* address *)
  msg_input : list Z;         (* input_data / input_size *)
  msg_value : Z;              (* bytes32 *)
  msg_salt : Z;               (* create2_salt *)
  msg_code_address : Z;       (* address *)
  msg_code_hash : option Z;   (* const bytes32*; None = nullptr (evmzero.cc:130) *)
}.

Definition EVMC_STATIC : Z := 1.

(** evmc_status_code values used at evmzero.cc:27-61 and interpreter.cc:1632-1797 *)
Inductive status_code : Set :=
| EVMC_SUCCESS | EVMC_FAILURE | EVMC_REVERT | EVMC_OUT_OF_GAS | EVMC_INVALID_INSTRUCTION
| EVMC_UNDEFINED_INSTRUCTION | EVMC_STACK_OVERFLOW | EVMC_STACK_UNDERFLOW
| EVMC_BAD_JUMP_DESTINATION | EVMC_INVALID_MEMORY_ACCESS | EVMC_CALL_DEPTH_EXCEEDED
| EVMC_STATIC_MODE_VIOLATION.

Definition status_eqb (a b : status_code) : bool :=
  match a, b with
  | EVMC_SUCCESS, EVMC_SUCCESS | EVMC_FAILURE, EVMC_FAILURE | EVMC_REVERT, EVMC_REVERT
  | EVMC_OUT_OF_GAS, EVMC_OUT_OF_GAS | EVMC_INVALID_INSTRUCTION, EVMC_INVALID_INSTRUCTION
  | EVMC_UNDEFINED_INSTRUCTION, EVMC_UNDEFINED_INSTRUCTION
  | EVMC_STACK_OVERFLOW, EVMC_STACK_OVERFLOW | EVMC_STACK_UNDERFLOW, EVMC_STACK_UNDERFLOW
  | EVMC_BAD_JUMP_DESTINATION, EVMC_BAD_JUMP_DESTINATION
  | EVMC_INVALID_MEMORY_ACCESS, EVMC_INVALID_MEMORY_ACCESS
  | EVMC_CALL_DEPTH_EXCEEDED, EVMC_CALL_DEPTH_EXCEEDED
  | EVMC_STATIC_MODE_VIOLATION, EVMC_STATIC_MODE_VIOLATION => true
  | _, _ => false
  end.

(** evmc_result (interpreter.cc:1631-1645, 1781-1797; evmzero.cc:176-184) *)
Record cresult : Set := mkRes {
  cr_status : status_code;
  cr_gas_left : Z;
  cr_gas_refund : Z;
  cr_output : list Z;
  cr_create_address : Z;
}.

(** evmc_tx_context (interpreter.cc:563-1010) *)
Record tx_context : Set := mkTx {
  tx_gas_price : Z; tx_origin : Z; tx_coinbase : Z; tx_number : Z; tx_timestamp : Z;
  tx_gas_limit : Z; tx_prev_randao : Z; tx_chain_id : Z; tx_base_fee : Z;
  tx_blob_base_fee : Z; tx_blob_hashes : list Z;
}.

(** evmc_storage_status (interpreter.cc:1202-1254) *)
Inductive storage_status : Set :=
| S_ASSIGNED | S_ADDED | S_DELETED | S_MODIFIED | S_DELETED_ADDED | S_MODIFIED_DELETED
| S_DELETED_RESTORED | S_ADDED_DELETED | S_MODIFIED_RESTORED.

Inductive access_status : Set := COLD | WARM.
Definition is_warm (a : access_status) : bool := match a with WARM => true | COLD => false end.

(** evmc_host_interface over an abstract host state [W].  The functions declared const in
    evmc::HostContext read the host state; the others return the new host state.
    The remaining function, call, may re-enter the VM and is kept separate (Interp.v, [s_call]).
    [h_copy_code w addr off n] is the list of bytes written into the buffer. *)
Record host (W : Type) : Type := mkHost {
  h_account_exists : W -> Z -> bool;
  h_get_storage : W -> Z -> Z -> Z;
  h_get_transient : W -> Z -> Z -> Z;
  h_get_balance : W -> Z -> Z;
  h_get_code_size : W -> Z -> Z;
  h_get_code_hash : W -> Z -> Z;
  h_copy_code : W -> Z -> Z -> Z -> list Z;
  h_tx_context : W -> tx_context;
  h_block_hash : W -> Z -> Z;
  h_access_account : W -> Z -> access_status * W;
  h_access_storage : W -> Z -> Z -> access_status * W;
  h_set_storage : W -> Z -> Z -> Z -> storage_status * W;
  h_set_transient : W -> Z -> Z -> Z -> W;
  h_selfdestruct : W -> Z -> Z -> bool * W;
  h_emit_log : W -> Z -> list Z -> list Z -> W;   (* address, data, topics *)
}.
Arguments h_account_exists {W}. Arguments h_get_storage {W}. Arguments h_get_transient {W}.
Arguments h_get_balance {W}. Arguments h_get_code_size {W}. Arguments h_get_code_hash {W}.
Arguments h_copy_code {W}. Arguments h_tx_context {W}. Arguments h_block_hash {W}.
Arguments h_access_account {W}. Arguments h_access_storage {W}. Arguments h_set_storage {W}.
Arguments h_set_transient {W}. Arguments h_selfdestruct {W}. Arguments h_emit_log {W}.

(** What the interpreter may assume of a host: values have the width of their EVMC type,
    nested executions respect the gas contract (which C04/C05 prove evmzero itself respects). *)
Record tx_ok (t : tx_context) : Prop := mkTxOk {
  tok_gas_price : is_word (tx_gas_price t);
  tok_origin : is_addr (tx_origin t);
  tok_coinbase : is_addr (tx_coinbase t);
  tok_number : 0 <= tx_number t < 2 ^ 63;
  tok_timestamp : 0 <= tx_timestamp t < 2 ^ 63;
  tok_gas_limit : 0 <= tx_gas_limit t < 2 ^ 63;
  tok_prev_randao : is_word (tx_prev_randao t);
  tok_chain_id : is_word (tx_chain_id t);
  tok_base_fee : is_word (tx_base_fee t);
  tok_blob_base_fee : is_word (tx_blob_base_fee t);
  tok_blob_hashes : Forall is_word (tx_blob_hashes t);
  tok_blob_count : zlen (tx_blob_hashes t) < 2 ^ 63;
}.

Record call_ok (m : message) (r : cresult) : Prop := mkCallOk {
  cok_gas : 0 <= cr_gas_left r <= msg_gas m;
  cok_refund : Z.abs (cr_gas_refund r) <= 199 * (msg_gas m - cr_gas_left r);
  cok_output : Forall is_byte (cr_output r);
  cok_output_len : zlen (cr_output r) < 2 ^ 63;
  cok_address : is_addr (cr_create_address r);
}.

Record host_ok {W : Type} (h : host W) : Prop := mkHostOk {
  hok_get_storage : forall w a k, is_word (h_get_storage h w a k);
  hok_get_transient : forall w a k, is_word (h_get_transient h w a k);
  hok_get_balance : forall w a, is_word (h_get_balance h w a);
  hok_get_code_size : forall w a, 0 <= h_get_code_size h w a < 2 ^ 64;
  hok_get_code_hash : forall w a, is_word (h_get_code_hash h w a);
  hok_copy_code : forall w a o n, 0 <= n -> zlen (h_copy_code h w a o n) <= n
                                  /\ Forall is_byte (h_copy_code h w a o n);
  hok_tx : forall w, tx_ok (h_tx_context h w);
  hok_block_hash : forall w n, is_word (h_block_hash h w n);
}.

(** The messages evmzero is given (by the client or by itself through the host). *)
Record msg_ok (m : message) : Prop := mkMsgOk {
  mok_flags : 0 <= msg_flags m;
  mok_depth : 0 <= msg_depth m < 2 ^ 31;
  mok_gas : - 2 ^ 63 <= msg_gas m < 2 ^ 54;
  mok_recipient : is_addr (msg_recipient m);
  mok_sender : is_addr (msg_sender m);
  mok_input : Forall is_byte (msg_input m);
  mok_input_len : zlen (msg_input m) < 2 ^ 63;
  mok_value : is_word (msg_value m);
}.

(** The host answers the well-formed calls made from depth [depth] within the gas contract. *)
Definition calls_ok {W : Type} (call : W -> message -> cresult * W) (depth : Z) : Prop :=
  forall w m, msg_ok m -> 0 <= msg_gas m -> msg_depth m = depth + 1 -> call_ok m (fst (call w m)).
