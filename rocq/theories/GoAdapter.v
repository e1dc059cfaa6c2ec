(** go/interpreter/evmc/evmc_interpreter.go and go/interpreter/evmzero/evmzero.go: how Go code runs the VM.  The Go
    bindings of evmc (third party, not in /repo) are taken to pass their arguments on as evmc_message fields (salt and code
    address zero), to return a nil error for EVMC_SUCCESS, and the status code as error otherwise. *)
From Verif Require Import Base Host SpecVm Vm Client.

(** go/tosca/interpreter.go: Parameters, as far as Run uses them (the block parameters reach the VM through the host) *)
Record parameters : Set := mkParams {
  p_revision : Z;             (* tosca.Revision, 187-192: 0 Istanbul ... 5 Cancun *)
  p_static : bool; p_depth : Z; p_gas : Z; p_recipient : Z; p_sender : Z; p_input : list Z; p_value : Z;
  p_code_hash : option Z; p_code : list Z;
}.
(** tosca.Result *)
Record go_result : Set := mkGo { go_success : bool; go_output : list Z; go_gas_left : Z; go_gas_refund : Z }.
Inductive go_error : Set := ErrUnsupportedRevision | ErrUnexpected (s : status_code).

(** evmc_interpreter.go:144-162 *)
Definition toEvmcRevision (r : Z) : option revision :=
  match r with
  | 0 => Some Istanbul | 1 => Some Berlin | 2 => Some London | 3 => Some Paris | 4 => Some Shanghai | 5 => Some Cancun
  | _ => None
  end.

(** evmc_interpreter.go:75-88 with the bindings' Execute *)
Definition message_of (p : parameters) : message :=
  mkMsg K_CALL (if p_static p then EVMC_STATIC else 0) (p_depth p) (p_gas p) (p_recipient p) (p_sender p) (p_input p) (p_value p) 0 0 (p_code_hash p).

(** evmc_interpreter.go:90-126: from the VM's result to the result of Run *)
Definition go_result_of (r : cresult) : go_result + go_error :=
  match cr_status r with
  | EVMC_SUCCESS => inl (mkGo true (cr_output r) (cr_gas_left r) (cr_gas_refund r))
  | EVMC_REVERT => inl (mkGo false (cr_output r) (cr_gas_left r) (cr_gas_refund r))
  | EVMC_OUT_OF_GAS | EVMC_INVALID_INSTRUCTION | EVMC_UNDEFINED_INSTRUCTION | EVMC_BAD_JUMP_DESTINATION | EVMC_INVALID_MEMORY_ACCESS
  | EVMC_STATIC_MODE_VIOLATION | EVMC_STACK_OVERFLOW | EVMC_STACK_UNDERFLOW => inl (mkGo false [] 0 0)
  | s => inr (ErrUnexpected s)
  end.

Section Go.
Context {W : Type}.
Variable g : setting W.

(** evmzero.go:114-119 and evmc_interpreter.go:50-127 Run *)
Definition Run (v : vm) (w : W) (p : parameters) : res ((go_result + go_error) * W * vm) :=
  if 5 <? p_revision p then Ok (inr ErrUnsupportedRevision, w, v)
  else
    match toEvmcRevision (p_revision p) with
    | None => Ok (inr ErrUnsupportedRevision, w, v)
    | Some rv => do! '(r, w, v) <- Execute g v w rv (p_code p) (message_of p); Ok (go_result_of r, w, v)
    end.
End Go.

(** ** The host side: evmc_interpreter.go:164-362 *)
(** tosca.CallKind *)
Inductive go_kind : Set := GoCall | GoStaticCall | GoDelegateCall | GoCallCode | GoCreate | GoCreate2.
(** tosca.CallParameters *)
Record call_params : Set := mkCallParams {
  cp_sender : Z; cp_recipient : Z; cp_value : Z; cp_input : list Z; cp_gas : Z; cp_salt : Z; cp_code_address : Z }.
(** tosca.CallResult *)
Record call_result : Set := mkCallResult {
  gr_output : list Z; gr_gas_left : Z; gr_gas_refund : Z; gr_created : Z; gr_success : bool }.

(** evmc_interpreter.go:296-316: the kind of call requested *)
Definition go_kind_of (m : message) : go_kind :=
  match msg_kind m with
  | K_CREATE => GoCreate
  | K_CREATE2 => GoCreate2
  | K_CALL => if Z.odd (msg_flags m) then GoStaticCall else GoCall
  | K_CALLCODE => GoCallCode
  | K_DELEGATECALL => GoDelegateCall
  end.
(** 318-326 *)
Definition call_params_of (m : message) : call_params :=
  mkCallParams (msg_sender m) (msg_recipient m) (msg_value m) (msg_input m) (msg_gas m) (msg_salt m) (msg_code_address m).
(** 328-340: the result as the VM sees it; an error returned by the context ([None]) reaches the VM as the bindings'
    EVMC_INTERNAL_ERROR-like failure with no gas and no output; the model uses EVMC_FAILURE for it *)
Definition cresult_of (r : option call_result) : cresult :=
  match r with
  | None => mkRes EVMC_FAILURE 0 0 [] 0
  | Some r => mkRes (if gr_success r then EVMC_SUCCESS else EVMC_REVERT) (gr_gas_left r) (gr_gas_refund r) (gr_output r) (gr_created r)
  end.

(** tosca.RunContext with explicit state (go/tosca/interpreter.go), reads first *)
Record run_context (W : Type) : Type := mkRC {
  rc_nonce : W -> Z -> Z;
  rc_balance : W -> Z -> Z;
  rc_code_size : W -> Z -> Z;
  rc_code_hash : W -> Z -> Z;
  rc_code : W -> Z -> list Z;
  rc_storage : W -> Z -> Z -> Z;
  rc_transient : W -> Z -> Z -> Z;
  rc_block_hash : W -> Z -> Z;
  rc_set_storage : W -> Z -> Z -> Z -> storage_status * W;
  rc_set_transient : W -> Z -> Z -> Z -> W;
  rc_access_account : W -> Z -> access_status * W;
  rc_access_storage : W -> Z -> Z -> access_status * W;
  rc_selfdestruct : W -> Z -> Z -> bool * W;
  rc_emit_log : W -> Z -> list Z -> list Z -> W;     (* address, topics, data *)
}.
Arguments rc_nonce {W}. Arguments rc_balance {W}. Arguments rc_code_size {W}. Arguments rc_code_hash {W}. Arguments rc_code {W}.
Arguments rc_storage {W}. Arguments rc_transient {W}. Arguments rc_block_hash {W}. Arguments rc_set_storage {W}. Arguments rc_set_transient {W}.
Arguments rc_access_account {W}. Arguments rc_access_storage {W}. Arguments rc_selfdestruct {W}. Arguments rc_emit_log {W}.

(** evmc_interpreter.go:182-186 isEmpty *)
Definition is_empty {W} (c : run_context W) (w : W) (a : Z) : bool :=
  (rc_nonce c w a =? 0) && (rc_balance c w a =? 0) && (rc_code_size c w a =? 0).

(** 173-293, 342-362: the host that the VM sees, for a transaction context [tx] (239-254 GetTxContext).  The bindings implement
    copy_code with GetCode (234-236): the bytes from [off] on, at most [n] of them. *)
Definition go_host {W} (c : run_context W) (tx : tx_context) : host W := mkHost W
  (fun w a => negb (is_empty c w a))
  (rc_storage c) (rc_transient c) (rc_balance c) (rc_code_size c)
  (fun w a => if is_empty c w a then 0 else rc_code_hash c w a)
  (fun w a off n => firstn (Z.to_nat n) (skipn (Z.to_nat off) (rc_code c w a)))
  (fun _ => tx) (rc_block_hash c) (rc_access_account c) (rc_access_storage c) (rc_set_storage c) (rc_set_transient c) (rc_selfdestruct c)
  (fun w a data topics => rc_emit_log c w a topics data).
