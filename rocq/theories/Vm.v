(** Models vm/evmzero/evmzero.cc: the VM object, Execute, StepN, SetOption, DumpProfile and
    ResetProfiler.  Line numbers without file name refer to evmzero.cc. *)
From Verif Require Import Base Host Memory Opcodes Interp Lru Sha3 Profiler SpecVm.
From Coq Require Import String.
Local Open Scope list_scope.

(** 27-61 ToEvmcStatusCode *)
Definition to_evmc_status_code (s : run_state) : status_code :=
  match s with
  | kRunning => EVMC_FAILURE
  | kDone => EVMC_SUCCESS
  | kReturn => EVMC_SUCCESS
  | kRevert => EVMC_REVERT
  | kInvalid => EVMC_INVALID_INSTRUCTION
  | kErrorOpcode => EVMC_UNDEFINED_INSTRUCTION
  | kErrorGas => EVMC_OUT_OF_GAS
  | kErrorStackUnderflow => EVMC_STACK_UNDERFLOW
  | kErrorStackOverflow => EVMC_STACK_OVERFLOW
  | kErrorJump => EVMC_BAD_JUMP_DESTINATION
  | kErrorReturnDataCopyOutOfBounds => EVMC_INVALID_MEMORY_ACCESS
  | kErrorCall => EVMC_CALL_DEPTH_EXCEEDED
  | kErrorCreate => EVMC_FAILURE
  | kErrorStaticCall => EVMC_STATIC_MODE_VIOLATION
  | kErrorInitCodeSizeExceeded => EVMC_FAILURE
  end.

(** evmc_step_status_code, as used at 63-95; [SStepOther]: any other value of the enumeration's type *)
Inductive step_status : Set :=
| STEP_RUNNING | STEP_STOPPED | STEP_RETURNED | STEP_REVERTED | STEP_FAILED | STEP_OTHER.

(** 63-77 ToRunStateCode *)
Definition to_run_state_code (s : step_status) : run_state :=
  match s with
  | STEP_RUNNING => kRunning
  | STEP_STOPPED => kDone
  | STEP_RETURNED => kReturn
  | STEP_REVERTED => kRevert
  | STEP_FAILED => kInvalid
  | STEP_OTHER => kErrorOpcode
  end.

(** 79-95 ToEvmcStepStatusCode *)
Definition to_evmc_step_status_code (s : run_state) : step_status :=
  match s with
  | kRunning => STEP_RUNNING
  | kDone => STEP_STOPPED
  | kReturn => STEP_RETURNED
  | kRevert => STEP_REVERTED
  | kInvalid => STEP_FAILED
  | _ => STEP_FAILED
  end.

(** 337-340 ContractInfo *)
Record cinfo : Set := mkCInfo { ci_padded : list Z; ci_targets : list Z }.

(** one line written by the logger (logger.h:25-33): op code, gas, top of the stack or "-empty-" *)
Record log_line : Set := mkLine { ln_op : opcode; ln_gas : Z; ln_top : option Z }.

(** 349-364: the fields of VM.  [v_log]: the lines written to std::cout so far.  [v_time] and [v_acq]
    count the readings of the clock and the stack buffers acquired so far: the clock and the contents
    of the buffers are given by the environment (see [tick] and [bufs] below). *)
Record vm : Type := mkVm {
  v_logging : bool; v_analysis : bool; v_sha3 : bool; v_profiling : bool; v_profext : bool;
  v_infos : lru (K:=Z) (V:=cinfo);
  v_hashes : sha3;
  v_log : list log_line;
  v_prof : profiler; v_profx : profiler;
  v_time : nat; v_acq : nat;
}.
(** 356: 1 << 16 *)
Definition kInfoCapacity : Z := 65536.
(** 349-364, a default constructed VM; [t] and [a]: the state of the environment *)
Definition vm_new (t a : nat) : vm :=
  mkVm false true true false false (clear 0 (mkCInfo [] []) kInfoCapacity) sha3_new [] profiler_new profiler_new t a.

Definition set_infos (c : lru) (v : vm) : vm :=
  mkVm (v_logging v) (v_analysis v) (v_sha3 v) (v_profiling v) (v_profext v) c (v_hashes v) (v_log v)
    (v_prof v) (v_profx v) (v_time v) (v_acq v).
Definition set_hashes (c : sha3) (v : vm) : vm :=
  mkVm (v_logging v) (v_analysis v) (v_sha3 v) (v_profiling v) (v_profext v) (v_infos v) c (v_log v)
    (v_prof v) (v_profx v) (v_time v) (v_acq v).
Definition set_log (l : list log_line) (v : vm) : vm :=
  mkVm (v_logging v) (v_analysis v) (v_sha3 v) (v_profiling v) (v_profext v) (v_infos v) (v_hashes v) l
    (v_prof v) (v_profx v) (v_time v) (v_acq v).
Definition set_prof (mode : pmode) (p : profiler) (v : vm) : vm :=
  mkVm (v_logging v) (v_analysis v) (v_sha3 v) (v_profiling v) (v_profext v) (v_infos v) (v_hashes v) (v_log v)
    (match mode with PFull => p | PExternal => v_prof v end) (match mode with PFull => v_profx v | PExternal => p end)
    (v_time v) (v_acq v).
Definition get_prof (mode : pmode) (v : vm) : profiler := match mode with PFull => v_prof v | PExternal => v_profx v end.
Definition next_time (v : vm) : vm :=
  mkVm (v_logging v) (v_analysis v) (v_sha3 v) (v_profiling v) (v_profext v) (v_infos v) (v_hashes v) (v_log v)
    (v_prof v) (v_profx v) (S (v_time v)) (v_acq v).
Definition next_acq (v : vm) : vm :=
  mkVm (v_logging v) (v_analysis v) (v_sha3 v) (v_profiling v) (v_profext v) (v_infos v) (v_hashes v) (v_log v)
    (v_prof v) (v_profx v) (v_time v) (S (v_acq v)).

(** 342-347 ComputeContractInfo *)
Definition compute_contract_info (code : list Z) : res cinfo :=
  do! t <- calc_valid_jump_targets code; Ok (mkCInfo (pad_code code) t).

(** 129-136, 193-200: the analysis of the code, cached under the message's code hash;
    lru_cache.h:71-78 GetOrInsert *)
Definition contract_info (code : list Z) (code_hash : option Z) (v : vm) : res (cinfo * vm) :=
  match (if v_analysis v then code_hash else None) with
  | Some h =>
    if negb (h =? 0) then
      do! '(r, c) <- Lru.get Z.eqb h (v_infos v);
      match r with
      | Some i => Ok (i, set_infos c v)
      | None =>
        do! i <- compute_contract_info code;
        do! '(i, c) <- insert_or_assign Z.eqb h i c;
        Ok (i, set_infos c v)
      end
    else do! i <- compute_contract_info code; Ok (i, v)
  | None => do! i <- compute_contract_info code; Ok (i, v)
  end.

Section Vm.
Context {W : Type}.
Variable H : host W.
Variable keccak : list Z -> Z.
(** successive values of internal::Now(); an observer that skips a reading just skips a value *)
Variable tick : nat -> Z.
(** contents of the stack buffers handed out by Stack::Data::Get() *)
Variable bufs : nat -> list (option Z).
Variable strict : bool.
(** what the host does when called (the EVMC host is not part of the repository) *)
Variable handler : W -> message -> prog W.

Notation observer := (observer (SH:=vm)).

(** logger.h:19-40 *)
Definition log_observer : observer := {|
  ob_uses_context := true;
  ob_pre_run := fun _ v => Ok v;
  ob_post_run := fun _ v => Ok v;
  ob_pre := fun o c v =>
    if kStackSize - oc_top c =? 0 then Ok (set_log (v_log v ++ [mkLine o (oc_gas c) None]) v)
    else match znth (oc_buf c) (oc_top c) with
         | Some (Some x) => Ok (set_log (v_log v ++ [mkLine o (oc_gas c) (Some x)]) v)
         | Some None => Undef UB_stack_uninit
         | None => Undef UB_stack_oob
         end;
  ob_post := fun _ _ v => Ok v;
|}.

(** profiler.h:211-343 *)
Definition prof_observer (mode : pmode) : observer := {|
  ob_uses_context := false;
  ob_pre_run := fun m v => do! p <- prof_pre_run (msg_depth m) (tick (v_time v)) (get_prof mode v); Ok (next_time (set_prof mode p v));
  ob_post_run := fun m v => do! p <- prof_post_run (msg_depth m) (tick (v_time v)) (get_prof mode v); Ok (next_time (set_prof mode p v));
  ob_pre := fun o c v =>
    do! p <- prof_pre mode o (msg_depth (oc_msg c)) (tick (v_time v)) (get_prof mode v); Ok (next_time (set_prof mode p v));
  ob_post := fun o c v =>
    do! p <- prof_post mode o (msg_depth (oc_msg c)) (tick (v_time v)) (get_prof mode v); Ok (next_time (set_prof mode p v));
|}.

(** 149-158: which observer Execute uses *)
Definition observer_of (v : vm) : observer :=
  if v_logging v then log_observer
  else if v_profiling v then prof_observer PFull
  else if v_profext v then prof_observer PExternal
  else no_observer.

(** sha3_cache_.Hash, interpreter.cc:521 *)
Definition vm_hash (v : vm) (bs : list Z) : res (Z * vm) :=
  do! '(h, c) <- sha3_hash keccak bs (v_hashes v); Ok (h, set_hashes c v).

Definition vm_sys (call : W -> vm -> message -> res (cresult * W * vm)) : sys W vm :=
  mkSys W vm H call keccak vm_hash strict.

(** 124-185 Execute; [call] is what calling the host does.  The output buffer is allocated and filled
    with a copy of return_data.  create_address is value-initialised. *)
Definition execute (call : W -> vm -> message -> res (cresult * W * vm))
    (v : vm) (w : W) (rev : revision) (code : list Z) (m : message) : res (cresult * W * vm) :=
  do! '(i, v) <- contract_info code (msg_code_hash m) v;
  let env := make_env m rev (ci_padded i) (ci_targets i) (v_sha3 v) in
  do! '(r, w, v') <- interpret (vm_sys call) env (observer_of v) (S (Z.to_nat (msg_gas m))) (bufs (v_acq v)) w (next_acq v);
  Ok (mkRes (to_evmc_status_code (ir_state r)) (ir_gas r) (ir_refund r) (ir_output r) 0, w, v').

(** the host, which may call Execute of the same VM again *)
Fixpoint run_prog (ex : vm -> W -> revision -> list Z -> message -> res (cresult * W * vm)) (p : prog W) (v : vm)
  : res (cresult * W * vm) :=
  match p with
  | Done r w => Ok (r, w, v)
  | Enter w rev code m k => do! '(r, w, v) <- ex v w rev code m; run_prog ex (k r w) v
  end.

(** Execute with the host's re-entries; [n] bounds the nesting (NoFuel is proved impossible) *)
Fixpoint exec (n : nat) (v : vm) (w : W) (rev : revision) (code : list Z) (m : message) : res (cresult * W * vm) :=
  match n with
  | O => NoFuel
  | S n => execute (fun w v m => run_prog (exec n) (handler w m) v) v w rev code m
  end.

(** calling the host from an execution of this VM *)
Definition vm_call (n : nat) (w : W) (v : vm) (m : message) : res (cresult * W * vm) := run_prog (exec n) (handler w m) v.

(** ** Stepping *)
(** the arguments of StepN that describe the state (187-192); the last element of [si_stack] is the top *)
Record step_in : Set := mkIn {
  si_status : step_status; si_pc : Z; si_refunds : Z; si_stack : list Z; si_mem : list Z; si_ret : list Z; si_steps : Z;
}.
(** evmc_step_result, 268-291 *)
Record step_out : Set := mkOut {
  so_step : step_status; so_status : status_code; so_rev : revision; so_pc : Z; so_gas : Z; so_refund : Z;
  so_output : list Z; so_stack : list Z; so_mem : list Z; so_last : list Z;
}.

(** 202-206: pushing the values onto a new Stack (stack.h:43-46) *)
Fixpoint push_all (vs : list Z) (buf : list (option Z)) (top : Z) : res (list (option Z) * Z) :=
  match vs with
  | [] => Ok (buf, top)
  | x :: vs =>
    if (0 <=? top - 1) && (top - 1 <? zlen buf)
    then push_all vs (list_upd buf (Z.to_nat (top - 1)) (Some x)) (top - 1)
    else Undef UB_stack_oob
  end.

(** 235-243: reading the stack back, stack[i] for i from 0 on, stored from the end of the array *)
Fixpoint read_stack (n : nat) (buf : list (option Z)) (top : Z) : res (list Z) :=
  match n with
  | O => Ok []
  | S n => match znth buf top with
           | Some (Some x) => do! l <- read_stack n buf (top + 1); Ok (l ++ [x])
           | Some None => Undef UB_stack_uninit
           | None => Undef UB_stack_oob
           end
  end.

(** 187-292 StepN.  Copying the Stack and Memory objects into the arguments, the context and the
    result leaves their contents unchanged (StackPool.v treats the copying of stacks). *)
Definition step_n (call : W -> vm -> message -> res (cresult * W * vm))
    (v : vm) (w : W) (rev : revision) (code : list Z) (m : message) (si : step_in) : res (step_out * W * vm) :=
  do! '(i, v) <- contract_info code (msg_code_hash m) v;
  do! '(buf, top) <- push_all (si_stack si) (bufs (v_acq v)) kStackSize;
  do! mem <- mem_of_span (si_mem si);
  let args := mkSArgs (to_run_state_code (si_status si)) (si_pc si) (si_refunds si) buf top mem
                (match si_status si with STEP_RUNNING => si_steps si | _ => 0 end) (si_ret si) in
  let env := make_env m rev (ci_padded i) (ci_targets i) (v_sha3 v) in
  do! '(c, s) <- interpret_n_steps (vm_sys call) env args w (next_acq v);
  do! stack <- read_stack (Z.to_nat (kStackSize - c_top c)) (m_buf s) (c_top c);
  do! '(mem, _) <- (if 0 <? mem_size (m_mem s) then mem_write_to strict (m_mem s) (mem_size (m_mem s)) 0 else Ok ([], m_mem s));
  Ok (mkOut (to_evmc_step_status_code (c_state c)) (to_evmc_status_code (c_state c)) rev (c_pc c) (c_gas c) (m_ref s)
        (m_ret s) stack mem (m_ret s), m_w s, m_sh s).
End Vm.

(** ** Options *)
Inductive set_option_result : Set := OPTION_SUCCESS | OPTION_INVALID_NAME | OPTION_INVALID_VALUE.

(** 295-301: the options and the fields they stand for *)
Inductive vm_flag : Set := FLogging | FAnalysis | FSha3 | FProfiling | FProfext.
Definition set_flag (f : vm_flag) (b : bool) (v : vm) : vm :=
  mkVm (match f with FLogging => b | _ => v_logging v end) (match f with FAnalysis => b | _ => v_analysis v end)
    (match f with FSha3 => b | _ => v_sha3 v end) (match f with FProfiling => b | _ => v_profiling v end)
    (match f with FProfext => b | _ => v_profext v end) (v_infos v) (v_hashes v) (v_log v) (v_prof v) (v_profx v) (v_time v) (v_acq v).
Definition on_off_options : list (string * vm_flag) :=
  [("logging", FLogging); ("analysis_cache", FAnalysis); ("sha3_cache", FSha3); ("profiling", FProfiling);
   ("profiling_external", FProfext)]%string.

(** 294-318 SetOption *)
Fixpoint set_option_in (opts : list (string * vm_flag)) (name value : string) (v : vm) : set_option_result * vm :=
  match opts with
  | [] => (OPTION_INVALID_NAME, v)
  | (option_name, member) :: opts =>
    if String.eqb name option_name then
      if String.eqb value "true" then (OPTION_SUCCESS, set_flag member true v)
      else if String.eqb value "false" then (OPTION_SUCCESS, set_flag member false v)
      else (OPTION_INVALID_VALUE, v)
    else set_option_in opts name value v
  end.
Definition set_option : string -> string -> vm -> set_option_result * vm := set_option_in on_off_options.

(** 320-326 DumpProfile: the profile that is printed, if any (Collect only records the end time) *)
Definition dump_profile (v : vm) : option profile :=
  if v_profiling v then Some (pr_profile (v_prof v))
  else if v_profext v then Some (pr_profile (v_profx v))
  else None.
(** 328-334 ResetProfiler *)
Definition reset_profiler (v : vm) : vm :=
  if v_profiling v then set_prof PFull profiler_new v
  else if v_profext v then set_prof PExternal profiler_new v
  else v.
