(** go/processor/floria: the transaction processor that runs transactions on an interpreter; here the interpreter is evmzero
    behind the adapter of GoAdapter.v.  Simplifications: block parameters are those of one of the supported revisions; a
    snapshot is the saved state (CreateSnapshot/RestoreSnapshot of a conforming TransactionContext); the crypto functions, the
    precompiled contracts (go-ethereum) and the order in which the map of precompiled contracts is enumerated are parameters. *)
From Verif Require Import Base Host SpecEvm SpecVm Vm Client GoAdapter.
From Coq Require Import String Ascii.
Local Open Scope list_scope.

Record log : Set := mkLog { lg_address : Z; lg_topics : list Z; lg_data : list Z }.
(** go/tosca/world_state.go:19-42 WorldState, go/tosca/interpreter.go:90-121 TransactionContext (without the legacy API):
    what a run context offers except Call, and what only the processor uses *)
Record context (W : Type) : Type := mkContext {
  x_rc : run_context W;
  x_account_exists : W -> Z -> bool;
  x_set_balance : W -> Z -> Z -> W;
  x_set_nonce : W -> Z -> Z -> W;
  x_set_code : W -> Z -> list Z -> W;
  x_logs : W -> list log;
}.
Arguments mkContext {W}. Arguments x_rc {W}. Arguments x_account_exists {W}. Arguments x_set_balance {W}. Arguments x_set_nonce {W}.
Arguments x_set_code {W}. Arguments x_logs {W}.

(** geth's PrecompiledContract: RequiredGas (uint64) and Run (None: an error) *)
Record precompile : Set := mkPre { pre_gas : list Z -> Z; pre_run : list Z -> option (list Z) }.

Record floria (W : Type) : Type := mkFloria {
  fl_ctx : context W;
  fl_keccak : list Z -> Z;                  (* crypto.Keccak256 *)
  fl_create : Z -> Z -> Z;                  (* crypto.CreateAddress: sender, nonce *)
  fl_create2 : Z -> Z -> Z -> Z;            (* crypto.CreateAddress2: sender, salt, hash of the init code *)
  fl_precompile : revision -> Z -> option precompile;   (* precompiled.go:39-55 *)
  fl_precompiles : revision -> list Z;                  (* precompiled.go:57-64 *)
  fl_rev : Z -> revision;                   (* blockParameters.Revision of each block *)
  fl_block : Z -> Z -> Z -> tx_context;     (* parameters of each block as the adapter passes them on, with an origin and a gas price *)
  fl_code_of : Z -> list Z;                 (* the code that a code hash stands for *)
}.
Arguments mkFloria {W}. Arguments fl_ctx {W}. Arguments fl_keccak {W}. Arguments fl_create {W}. Arguments fl_create2 {W}.
Arguments fl_precompile {W}. Arguments fl_precompiles {W}. Arguments fl_rev {W}. Arguments fl_block {W}. Arguments fl_code_of {W}.

(** run_context.go:25-32 runContext: depth, static, the block and what the adapter needs of the transaction parameters.  The
    methods have value receivers, so every Call works on its own copy and hands that copy to the interpreter. *)
Record rctx : Set := mkR { r_depth : Z; r_static : bool; r_block : Z; r_origin : Z; r_price : Z }.
Definition deeper (r : rctx) (static : bool) : rctx := mkR (r_depth r + 1) static (r_block r) (r_origin r) (r_price r).

(** processor.go:19-33 *)
Definition TxGas := 21000.
Definition TxGasContractCreation := 53000.
Definition TxDataNonZeroGasEIP2028 := 16.
Definition TxDataZeroGasEIP2028 := 4.
Definition TxAccessListAddressGas := 2400.
Definition TxAccessListStorageKeyGas := 1900.
Definition createGasCostPerByte := 200.
Definition maxCodeSize := 24576.
Definition maxInitCodeSize := 2 * maxCodeSize.
Definition MaxRecursiveDepth := 1024.
(** state_contract.go:24-30 *)
Definition callValueTransferGas := 9000.
Definition createGas := 32000.
Definition createDataGas := 200.
Definition memoryGas := 3.
Definition sStoreSetGasEIP2200 := 20000.
(** state_contract.go:34-42 *)
Definition DriverAddress : Z := 0xd100a01e00000000000000000000000000000000.
Definition StateContractAddress : Z := 0xd100ec0000000000000000000000000000000000.

(** tosca.Transaction, go/tosca/processor.go:27-37 *)
Record transaction : Set := mkTransaction {
  t_sender : Z; t_recipient : option Z; t_nonce : Z; t_input : list Z; t_value : Z; t_gas_limit : Z; t_gas_price : Z;
  t_access_list : option (list (Z * list Z));     (* None: nil *)
}.
(** tosca.Receipt, 49-56 (BlobGasUsed is never set) *)
Record receipt : Set := mkReceipt { rt_success : bool; rt_output : list Z; rt_contract : option Z; rt_gas_used : Z; rt_logs : list log }.
Definition empty_receipt : receipt := mkReceipt false [] None 0 [].

(** big-endian integers of byte strings *)
Definition no_result : call_result := mkCallResult [] 0 0 0 false.       (* tosca.CallResult{} *)
Definition is_create (k : go_kind) : bool := match k with GoCreate | GoCreate2 => true | _ => false end.

Fixpoint ascii_bytes (s : string) : list Z :=
  match s with EmptyString => [] | String c s => Z.of_N (N_of_ascii c) :: ascii_bytes s end.

Section Floria.
Context {W : Type}.
Variable f : floria W.
Notation ctx := (fl_ctx f).
Notation rc := (x_rc (fl_ctx f)).
Notation WW := (W * rctx)%type.

(** run_context.go:23 *)
Definition emptyCodeHash : Z := fl_keccak f [].

(** run_context.go:168-198 transferValue; None: an error.  Value arithmetic is modulo 2^256 (types.go:87-117), and a Value has 32 bytes. *)
Definition transferValue (w : W) (value sender recipient : Z) : option W :=
  let value := value mod 2 ^ 256 in
  if value =? 0 then Some w
  else
    let senderBalance := rc_balance rc w sender in
    if senderBalance <? value then None
    else if sender =? recipient then Some w
    else
      let receiverBalance := rc_balance rc w recipient in
      let updatedBalance := (receiverBalance + value) mod 2 ^ 256 in
      if (updatedBalance <? receiverBalance) || (updatedBalance <? value) then None
      else Some (x_set_balance ctx (x_set_balance ctx w sender ((senderBalance - value) mod 2 ^ 256)) recipient updatedBalance).

(** ** precompiled.go:20-37 handlePrecompiledContract.  tosca.Gas is int64, RequiredGas is uint64. *)
Definition handlePrecompiledContract (rev : revision) (input : list Z) (address gas : Z) : option call_result :=
  match fl_precompile f rev address with
  | None => None
  | Some c =>
    let gasCost := s64 (pre_gas c input) in
    if gas <? gasCost then Some no_result
    else
      let gas := s64 (gas - gasCost) in
      Some match pre_run c input with
           | Some output => mkCallResult output gas 0 0 true
           | None => mkCallResult [] gas 0 0 false
           end
  end.

(** ** state_contract.go *)
(** 49-87: the first four bytes of the hash of the signature *)
Definition method_id (signature : string) : Z := fl_keccak f (ascii_bytes signature) / 2 ^ 224.
(** the results of the execute functions: (gas, nil) or (0, error) *)
Definition ok (gas : Z) (w : W) : call_result * W := (mkCallResult [] gas 0 0 true, w).
Definition failing (w : W) : call_result * W := (no_result, w).

(** 143-163 *)
Definition executeStateSetBalance (w : W) (sender : Z) (input : list Z) (gas : Z) : call_result * W :=
  if gas <? callValueTransferGas then failing w
  else if negb (zlen input =? 64) then failing w
  else
    let account := be (slice input 12 20) in
    let value := be (slice input 32 32) in
    if account =? sender then failing w
    else ok (gas - callValueTransferGas) (x_set_balance ctx w account value).
(** 165-188 *)
Definition executeStateContractCopyCode (w : W) (input : list Z) (gas : Z) : call_result * W :=
  if gas <? createGas then failing w
  else if negb (zlen input =? 64) then failing w
  else
    let gas := gas - createGas in
    let accountTo := be (slice input 12 20) in
    let accountFrom := be (slice input 44 20) in
    let code := rc_code rc w accountFrom in
    let cost := zlen code * (createDataGas + memoryGas) in
    if gas <? cost then failing w
    else ok (gas - cost) (if accountFrom =? accountTo then w else x_set_code ctx w accountTo code).
(** 190-216 *)
Definition executeStateContractSwapCode (w : W) (input : list Z) (gas : Z) : call_result * W :=
  if gas <? 2 * createGas then failing w
  else if negb (zlen input =? 64) then failing w
  else
    let gas := gas - 2 * createGas in
    let account0 := be (slice input 12 20) in
    let account1 := be (slice input 44 20) in
    let code0 := rc_code rc w account0 in
    let code1 := rc_code rc w account1 in
    let cost := (zlen code0 * (createDataGas + memoryGas) + zlen code1 * (createDataGas + memoryGas)) / 2 in
    if gas <? cost then failing w
    else ok (gas - cost) (if account0 =? account1 then w else x_set_code ctx (x_set_code ctx w account0 code1) account1 code0).
(** 218-234 *)
Definition executeStateContractSetStorage (w : W) (input : list Z) (gas : Z) : call_result * W :=
  if gas <? sStoreSetGasEIP2200 then failing w
  else if negb (zlen input =? 96) then failing w
  else ok (gas - sStoreSetGasEIP2200) (snd (rc_set_storage rc w (be (slice input 12 20)) (be (slice input 32 32)) (be (slice input 64 32)))).
(** 236-246: big.Int.Uint64 takes the low 64 bits *)
Definition executeStateContractIncNonce (w : W) (sender : Z) (input : list Z) (gas : Z) : call_result * W :=
  if gas <? callValueTransferGas then failing w
  else if negb (zlen input =? 64) then failing w
  else
    let account := be (slice input 12 20) in
    let valueUint := u64 (be (slice input 32 32)) in
    if account =? sender then failing w
    else if (valueUint <=? 0) || (256 <=? valueUint) then failing w
    else ok (gas - callValueTransferGas) (x_set_nonce ctx w account (u64 (rc_nonce rc w account + valueUint))).

(** 96-141 handleStateContract; None: not the state contract *)
Definition handleStateContract (w : W) (sender receiver : Z) (input : list Z) (gas : Z) : option (call_result * W) :=
  if negb (receiver =? StateContractAddress) then None
  else if negb (sender =? DriverAddress) then Some (no_result, w)
  else if zlen input <? 4 then Some (no_result, w)
  else
    let selector := be (slice input 0 4) in
    let input := slice input 4 (zlen input - 4) in
    Some
      (if selector =? method_id "setBalance(address,uint256)" then executeStateSetBalance w sender input gas
       else if selector =? method_id "copyCode(address,address)" then executeStateContractCopyCode w input gas
       else if selector =? method_id "swapCode(address,address)" then executeStateContractSwapCode w input gas
       else if selector =? method_id "setStorage(address,bytes32,bytes32)" then executeStateContractSetStorage w input gas
       else if selector =? method_id "incNonce(address,uint256)" then executeStateContractIncNonce w sender input gas
       else failing w).

(** ** run_context.go:34-150 Call *)
(** 155-166 *)
Definition createAddress (kind : go_kind) (sender nonce salt initHash : Z) : Z :=
  match kind with GoCreate => fl_create f sender nonce | _ => fl_create2 f sender salt initHash end.
(** 37-49: code and code hash *)
Definition code_source (kind : go_kind) (p : call_params) : Z :=
  match kind with GoDelegateCall | GoCallCode => cp_code_address p | _ => cp_recipient p end.
Definition call_code (w : W) (kind : go_kind) (p : call_params) : list Z * Z :=
  if is_create kind && (cp_recipient p =? 0) then (cp_input p, fl_keccak f (cp_input p))
  else (rc_code rc w (code_source kind p), rc_code_hash rc w (code_source kind p)).
(** 61-64 *)
Definition collision (w : W) (created : Z) : bool :=
  negb (rc_nonce rc w created =? 0) || (negb (rc_code_hash rc w created =? 0) && negb (rc_code_hash rc w created =? emptyCodeHash)).
(** 68-69 *)
Definition bump (w : W) (sender created : Z) : W :=
  x_set_nonce ctx (x_set_nonce ctx w sender (u64 (rc_nonce rc w sender + 1))) created 1.
(** 121-136, 138-146: the result of a run that succeeded, and the state after it *)
Definition deployed (rev : revision) (g : go_result) (created : Z) (w : W) : call_result * W :=
  let code := go_output g in
  if maxCodeSize <? zlen code then (no_result, w)
  else if rev_ge rev London && (0 <? zlen code) && (data_at code 0 =? 0xEF) then (no_result, w)
  else if go_gas_left g <? zlen code * createGasCostPerByte then (no_result, w)
  else (mkCallResult code (go_gas_left g - zlen code * createGasCostPerByte) (go_gas_refund g) created true, x_set_code ctx w created code).

(** The continuation [k] gets the result (None: an error) and the state; the state after an error is the snapshot.
    The message to the VM is the adapter's (GoAdapter.message_of): kind CALL, static flag, depth (100: the depth before it was
    incremented), code hash.  Simplifications: a code hash is passed on only if it is the hash of that code alone (no
    collisions), and a code of more than 2^32 bytes, which can be an init code only, is not run. *)
Definition run_message (r : rctx) (kind : go_kind) (p : call_params) (recipient : Z) (code : list Z) (hash : Z) : message :=
  message_of (mkParams 0 (r_static r) (r_depth r - 1) (cp_gas p) recipient (cp_sender p) (cp_input p) (cp_value p)
    (if list_eq_dec Z.eq_dec code (fl_code_of f hash) then Some hash else None) code).
Definition Call (r : rctx) (w : W) (kind : go_kind) (p : call_params) (k : option call_result -> W -> prog WW) : prog WW :=
  if MaxRecursiveDepth <? r_depth r then k (Some no_result) w
  else
    let rev := fl_rev f (r_block r) in
    let '(code, codeHash) := call_code w kind p in
    let creating := is_create kind in
    let created := if creating then createAddress kind (cp_sender p) (rc_nonce rc w (cp_sender p)) (cp_salt p) codeHash else 0 in
    if creating && collision w created then k (Some no_result) w
    else
      let w := if creating then bump w (cp_sender p) created else w in
      let recipient := if creating then created else cp_recipient p in
      let r := deeper r (match kind with GoStaticCall => true | _ => r_static r end) in
      let snapshot := w in
      match match kind with GoStaticCall | GoDelegateCall => Some w | _ => transferValue w (cp_value p) (cp_sender p) recipient end with
      | None => k (Some no_result) snapshot
      | Some w =>
        match handleStateContract w (cp_sender p) (cp_recipient p) (cp_input p) (cp_gas p) with
        | Some (res, w) => k (Some res) w
        | None =>
          match handlePrecompiledContract rev (cp_input p) recipient (cp_gas p) with
          | Some res => k (Some res) w
          | None =>
            if match kind with GoCall => negb (x_account_exists ctx w recipient) | _ => false end
            then k (Some (mkCallResult [] (cp_gas p) 0 0 true)) w
            else if 2 ^ 32 <? zlen code then k None snapshot
            else
              Enter (w, r) rev code (run_message r kind p recipient code codeHash) (fun cr x =>
                match go_result_of cr with
                | inr _ => k None snapshot
                | inl g =>
                  if negb (go_success g) then k (Some (mkCallResult (go_output g) (go_gas_left g) (go_gas_refund g) created false)) snapshot
                  else if creating then let '(res, w) := deployed rev g created (fst x) in k (Some res) w
                  else k (Some (mkCallResult (go_output g) (go_gas_left g) (go_gas_refund g) created true)) (fst x)
                end)
          end
        end
      end.

(** the VM's host calls back: evmc_interpreter.go:295-340.  Every run has the run context of the Call that started it; the model
    keeps it beside the state, where only this function changes it.  It always has the depth of the message ([fallback] says what
    would happen otherwise; the theorems hold for every [fallback]). *)
Definition handler (fallback : message -> cresult) (x : WW) (m : message) : prog WW :=
  let '(w, r) := x in
  if r_depth r =? msg_depth m
  then Call r w (go_kind_of m) (call_params_of m) (fun res w => Done (cresult_of res) (w, r))
  else Done (fallback m) x.

(** the host functions; of the run context only the transaction parameters matter (an Address has 20 bytes, a Value 32) *)
Definition lift_host (h : tx_context -> host W) (tx : rctx -> tx_context) : host WW :=
  let at_ (x : WW) := h (tx (snd x)) in mkHost WW
  (fun x => h_account_exists (at_ x) (fst x)) (fun x => h_get_storage (at_ x) (fst x)) (fun x => h_get_transient (at_ x) (fst x)) (fun x => h_get_balance (at_ x) (fst x))
  (fun x => h_get_code_size (at_ x) (fst x)) (fun x => h_get_code_hash (at_ x) (fst x)) (fun x => h_copy_code (at_ x) (fst x)) (fun x => h_tx_context (at_ x) (fst x))
  (fun x => h_block_hash (at_ x) (fst x))
  (fun x a => let '(s, w) := h_access_account (at_ x) (fst x) a in (s, (w, snd x)))
  (fun x a k => let '(s, w) := h_access_storage (at_ x) (fst x) a k in (s, (w, snd x)))
  (fun x a k v => let '(s, w) := h_set_storage (at_ x) (fst x) a k v in (s, (w, snd x)))
  (fun x a k v => (h_set_transient (at_ x) (fst x) a k v, snd x))
  (fun x a b => let '(s, w) := h_selfdestruct (at_ x) (fst x) a b in (s, (w, snd x)))
  (fun x a d ts => (h_emit_log (at_ x) (fst x) a d ts, snd x)).

(** everything the VM is given *)
Definition tx_of (r : rctx) : tx_context := fl_block f (r_block r) (r_origin r mod 2 ^ 160) (r_price r mod 2 ^ 256).
Definition machine (fallback : message -> cresult) (tick : nat -> Z) (bufs : nat -> list (option Z)) : setting WW :=
  mkSetting (lift_host (go_host rc) tx_of) (fl_keccak f) tick bufs (handler fallback) (fl_code_of f).

(** a call that ends hands its result back in the same form in which the VM gets it *)
Definition call_result_of (r : cresult) : option call_result :=
  match cr_status r with
  | EVMC_SUCCESS => Some (mkCallResult (cr_output r) (cr_gas_left r) (cr_gas_refund r) (cr_create_address r) true)
  | EVMC_REVERT => Some (mkCallResult (cr_output r) (cr_gas_left r) (cr_gas_refund r) (cr_create_address r) false)
  | _ => None
  end.
(** run_context.go:34-150 once more: Call as it is called by the processor, with all the executions it starts *)
Definition context_call (fallback : message -> cresult) (tick : nat -> Z) (bufs : nat -> list (option Z)) (v : vm) (w : W) (r : rctx)
  (kind : go_kind) (p : call_params) : res (option call_result * W * vm) :=
  do! '(cr, x, v) <- run_prog (Execute (machine fallback tick bufs)) (Call r w kind p (fun res w => Done (cresult_of res) (w, r))) v;
  Ok (call_result_of cr, fst x, v).

(** ** processor.go *)
(** 139-147: None means no error *)
Definition nonce_bad (tn sn : Z) : bool := negb (tn =? sn) || (u64 (sn + 1) <? sn).
(** 150-156 *)
Definition not_eoa (w : W) (sender : Z) : bool := negb (rc_code_hash rc w sender =? 0) && negb (rc_code_hash rc w sender =? emptyCodeHash).
(** 274-286, Value.Scale: types.go:119-122; uint64(GasLimit) *)
Definition scale (v s : Z) : Z := (v * s) mod 2 ^ 256.
Definition buyGas (w : W) (t : transaction) : option W :=
  let gas := scale (t_gas_price t) (u64 (t_gas_limit t)) in
  let b := rc_balance rc w (t_sender t) in
  if b <? gas then None else Some (x_set_balance ctx w (t_sender t) ((b - gas) mod 2 ^ 256)).
(** 239-272 *)
Definition setupGasBilling (t : transaction) : Z :=
  let nonZeroBytes := zlen (filter (fun b => negb (b =? 0)) (t_input t)) in
  match t_recipient t with None => TxGasContractCreation | Some _ => TxGas end
  + (zlen (t_input t) - nonZeroBytes) * TxDataZeroGasEIP2028 + nonZeroBytes * TxDataNonZeroGasEIP2028
  + match t_access_list t with
    | None => 0
    | Some l => zlen l * TxAccessListAddressGas + fold_left (fun n e => n + zlen (snd e : list Z) * TxAccessListStorageKeyGas) l 0
    end.
(** 158-179 *)
Definition touch_account (w : W) (a : Z) : W := snd (rc_access_account rc w a).
Definition setUpAccessList (w : W) (t : transaction) (rev : revision) : W :=
  match t_access_list t with
  | None => w
  | Some l =>
    let w := touch_account w (t_sender t) in
    let w := match t_recipient t with Some a => touch_account w a | None => w end in
    let w := fold_left touch_account (fl_precompiles f rev) w in
    fold_left (fun w e => fold_left (fun w key => snd (rc_access_storage rc w (fst e) key)) (snd e) (touch_account w (fst e))) l w
  end.
(** 181-201 *)
Definition tx_kind (t : transaction) : go_kind := match t_recipient t with None => GoCreate | Some _ => GoCall end.
Definition tx_params (t : transaction) (gas : Z) : call_params :=
  mkCallParams (t_sender t) (match t_recipient t with Some a => a | None => 0 end) (t_value t) (t_input t) gas 0 0.
(** 203-230: Go's / truncates *)
Definition calculateGasLeft (t : transaction) (res : call_result) (rev : revision) : Z :=
  let gasLeft := gr_gas_left res in
  let gasLeft := if t_sender t =? 0 then gasLeft else gasLeft - Z.quot gasLeft 10 in
  if gr_success res then
    let gasUsed := t_gas_limit t - gasLeft in
    let maxRefund := if rev_ge rev London then Z.quot gasUsed 5 else Z.quot gasUsed 2 in
    gasLeft + (if maxRefund <? gr_gas_refund res then maxRefund else gr_gas_refund res)
  else gasLeft.
(** 232-237 *)
Definition refundGas (w : W) (t : transaction) (gasLeft : Z) : W :=
  x_set_balance ctx w (t_sender t) ((rc_balance rc w (t_sender t) + scale (t_gas_price t) (u64 gasLeft)) mod 2 ^ 256).

(** what a transaction comes to: a receipt, or a receipt with an error *)
Inductive outcome : Set := Receipt (r : receipt) | Error (r : receipt).

(** 49-137 Run: the checks (before_call), the call, and the rest (after_call) *)
Inductive prepared : Type := Rejected (r : receipt) (w : W) | Prepared (gas : Z) (w : W).
Definition before_call (rev : revision) (w : W) (t : transaction) : prepared :=
  if nonce_bad (t_nonce t) (rc_nonce rc w (t_sender t)) then Rejected empty_receipt w
  else if not_eoa w (t_sender t) then Rejected empty_receipt w
  else
    match buyGas w t with
    | None => Rejected empty_receipt w
    | Some w =>
      let intrinsicGas := setupGasBilling t in
      if t_gas_limit t <? intrinsicGas then Rejected (mkReceipt false [] None (t_gas_limit t) []) w
      else if rev_ge rev Shanghai && match t_recipient t with None => true | Some _ => false end && (maxInitCodeSize <? zlen (t_input t))
      then Rejected empty_receipt w
      else
        let w := if rev_ge rev Berlin then setUpAccessList w t rev else w in
        let w := match t_recipient t with
                 | Some _ => x_set_nonce ctx w (t_sender t) (u64 (rc_nonce rc w (t_sender t) + 1))
                 | None => w
                 end in
        Prepared (t_gas_limit t - intrinsicGas) w
    end.
Definition tx_context_of (block : Z) (t : transaction) : rctx := mkR 0 false block (t_sender t) (t_gas_price t).
Definition after_call (rev : revision) (t : transaction) (res : option call_result) (w : W) : outcome * W :=
  let errorReceipt := mkReceipt false [] None (t_gas_limit t) [] in
  match res with
  | None => (Error errorReceipt, w)
  | Some res =>
    if negb (gr_success res) && (gr_gas_left res =? 0) then (Receipt errorReceipt, w)
    else
      let gasLeft := calculateGasLeft t res rev in
      let w := refundGas w t gasLeft in
      (Receipt (mkReceipt (gr_success res) (gr_output res) (match t_recipient t with None => Some (gr_created res) | Some _ => None end)
         (t_gas_limit t - gasLeft) (x_logs ctx w)), w)
  end.
Definition processor_run (fallback : message -> cresult) (tick : nat -> Z) (bufs : nat -> list (option Z)) (v : vm) (w : W) (block : Z) (t : transaction)
  : res (outcome * W * vm) :=
  match before_call (fl_rev f block) w t with
  | Rejected r w => Ok (Receipt r, w, v)
  | Prepared gas w =>
    do! '(res, w, v) <- context_call fallback tick bufs v w (tx_context_of block t) (tx_kind t) (tx_params t gas);
    let '(o, w) := after_call (fl_rev f block) t res w in
    Ok (o, w, v)
  end.
End Floria.
