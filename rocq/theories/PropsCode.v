(** C07, C08, C33 - C35: code, dispatch and status. *)
From Verif Require Import Base Host SpecEvm SpecVm Opcodes Interp Vm SpecStep Client SpecHost SpecFees SpecCause
  JumpFacts ClientFacts OpFacts OpFacts2 OpFacts3 ApiFacts PropFacts PropFacts2 PropFacts9 Toy.
From Coq Require Import Lia ZArith List Bool.
Import ListNotations.

(** ** C07 *)
(** [jumpdest] and [instr_start] are defined in SpecEvm.v: 0x5B at an instruction start of the linear disassembly *)
Theorem C07_analysis : forall code, zlen code < 2 ^ 63 ->
  exists t, calc_valid_jump_targets code = Ok t /\ zlen t = zlen code /\
    forall d, 0 <= d < zlen code -> (data_at t d = 1 <-> jumpdest code d) /\ (data_at t d = 0 <-> ~ jumpdest code d).
Proof. exact analysis_exact. Qed.
(** PUSH1 0x5B JUMPDEST: only the second 0x5B is a target *)
Example C07_analysis_case : calc_valid_jump_targets [0x60; 0x5B; 0x5B] = Ok [0; 0; 1]. Proof. vm_compute. reflexivity. Qed.

Theorem C07_executed_instructions : forall W (g : setting W), setting_ok g -> forall v w rv code m n so w',
  reach g v -> exec_ok (g_code_of g) code m -> observed g v w rv code m n so w' -> so_step so = STEP_RUNNING -> instr_start code (so_pc so).
Proof. exact (@executed_start). Qed.
(** JUMPDEST PUSH1 0 JUMP: after 4 instructions, in the second round *)
Example C07_executed_case : observed (toy_setting [0x00]) (vm_new 0 0) toy0 London [0x5B; 0x60; 0; 0x56] (toy_msg 100 []) 4
  (mkOut STEP_RUNNING EVMC_FAILURE London 1 87 0 [] [] [] []) toy0.
Proof. toy_observe. Qed.

Theorem C07_jump : forall W (g : setting W), setting_ok g -> forall v w rv code m si rest d,
  at_op g v code m si 0x56 -> si_stack si = rest ++ [d] -> 8 <= msg_gas m ->
  (jumpdest code d -> steps_to g v w rv code m si (running rv d (msg_gas m - 8) (si_refunds si) rest (whole_words (si_mem si)) (si_ret si)) w) /\
  (~ jumpdest code d -> fails_with g v w rv code m si EVMC_BAD_JUMP_DESTINATION w).
Proof. exact (@op_jump). Qed.
Theorem C07_jumpi : forall W (g : setting W), setting_ok g -> forall v w rv code m si rest c d,
  at_op g v code m si 0x57 -> si_stack si = rest ++ [c; d] -> 10 <= msg_gas m ->
  (c = 0 -> steps_to g v w rv code m si (running rv (si_pc si + 1) (msg_gas m - 10) (si_refunds si) rest (whole_words (si_mem si)) (si_ret si)) w) /\
  (c <> 0 -> jumpdest code d -> steps_to g v w rv code m si (running rv d (msg_gas m - 10) (si_refunds si) rest (whole_words (si_mem si)) (si_ret si)) w) /\
  (c <> 0 -> ~ jumpdest code d -> fails_with g v w rv code m si EVMC_BAD_JUMP_DESTINATION w).
Proof. exact (@op_jumpi). Qed.
Example C07_jump_case : at_op (toy_setting []) (vm_new 0 0) [0x56; 0x60; 0x5B; 0x5B] (toy_msg 10 []) (toy_in 0 [5; 3] [] []) 0x56 /\ jumpdest [0x56; 0x60; 0x5B; 0x5B] 3 /\
  ~ jumpdest [0x56; 0x60; 0x5B; 0x5B] 2.
Proof. split; [toy_ready|]. split; [exact (is_dest_spec_or [0x56; 0x60; 0x5B; 0x5B] 3)|exact (is_dest_spec_or [0x56; 0x60; 0x5B; 0x5B] 2)]. Qed.
(** a destination whose low 32 bits would be fine *)
Example C07_jump_far : fails_with (toy_setting []) (vm_new 0 0) toy0 London [0x56; 0x60; 0x5B; 0x5B] (toy_msg 10 []) (toy_in 0 [5; 2 ^ 32 + 3] [] []) EVMC_BAD_JUMP_DESTINATION toy0.
Proof. toy_bad. Qed.
Print Assumptions C07_analysis.
Print Assumptions C07_executed_instructions.
Print Assumptions C07_jump.
Print Assumptions C07_jumpi.

(** ** C08 *)
(** That no fetch leaves the padded buffer is C02.  The analysis of a code is stored with its padding (Vm.contract_info). *)
Theorem C08_padding : forall code, pad_code code = code ++ zeros 33.
Proof. intros. reflexivity. Qed.
Theorem C08_stop_in_padding : forall W (g : setting W), setting_ok g -> forall v w rv code m si,
  reach g v -> exec_ok (g_code_of g) code m -> step_ok code m si -> si_status si = STEP_RUNNING -> si_steps si = 1 ->
  zlen code <= si_pc si -> 0 <= msg_gas m ->
  steps_to g v w rv code m si (ended STEP_STOPPED EVMC_SUCCESS rv (si_pc si + 1) (msg_gas m) (si_refunds si) (si_stack si) (whole_words (si_mem si)) []) w.
Proof. exact (@stop_in_padding). Qed.
Theorem C08_run_off_end : forall W (g : setting W), setting_ok g -> forall v w rv code m n so w',
  reach g v -> exec_ok (g_code_of g) code m -> observed g v w rv code m n so w' -> so_step so = STEP_RUNNING -> zlen code <= so_pc so -> 0 <= so_gas so ->
  exists v', Execute g v w rv code m = Ok (mkRes EVMC_SUCCESS (so_gas so) (so_refund so) [] 0, w', v').
Proof. exact (@run_off_end). Qed.
Example C08_off_end_case : observed (toy_setting [0x00]) (vm_new 0 0) toy0 London [0x7F; 1; 2] (toy_msg 100 []) 1
  (mkOut STEP_RUNNING EVMC_FAILURE London 33 97 0 [] [2 ^ 248 + 2 * 2 ^ 240] [] []) toy0.
Proof. toy_observe. Qed.
Theorem C08_truncated_push : forall W (g : setting W), setting_ok g -> forall v w rv code m si n, 1 <= n <= 32 ->
  at_op g v code m si (0x5F + n) -> zlen code <= si_pc si + 1 + n -> zlen (si_stack si) < 1024 -> 3 <= msg_gas m ->
  steps_to g v w rv code m si (running rv (si_pc si + 1 + n) (msg_gas m - 3) (si_refunds si)
    (si_stack si ++ [be (skipn (Z.to_nat (si_pc si + 1)) code) * 256 ^ (si_pc si + 1 + n - zlen code)]) (whole_words (si_mem si)) (si_ret si)) w.
Proof. exact (@truncated_push). Qed.
Example C08_truncated_case : at_op (toy_setting []) (vm_new 0 0) [0x00; 0x61; 7] (toy_msg 10 []) (toy_in 1 [5] [] []) (0x5F + 2). Proof. toy_ready. Qed.
Print Assumptions C08_padding.
Print Assumptions C08_stop_in_padding.
Print Assumptions C08_run_off_end.
Print Assumptions C08_truncated_push.

(** ** C33 *)
(** [introduced] (SpecHost.v): BASEFEE from London, PUSH0 from Shanghai, BLOBHASH, BLOBBASEFEE, TLOAD, TSTORE, MCOPY from
    Cancun; [failed] says in particular that the stack is unchanged *)
Theorem C33_revision_gating : forall W (g : setting W), setting_ok g -> forall v w rv code m si op so w',
  at_op g v code m si op -> steps_to g v w rv code m si so w' ->
  (so_status so = EVMC_UNDEFINED_INSTRUCTION <-> exists since, In (op, since) introduced /\ rev_ge rv since = false) /\
  (so_status so = EVMC_UNDEFINED_INSTRUCTION -> failed rv si EVMC_UNDEFINED_INSTRUCTION so /\ w' = w).
Proof. exact (@undefined_fails). Qed.
Example C33_before : fails_with (toy_setting []) (vm_new 0 0) toy0 London [0x5F] (toy_msg 10 []) (toy_in 0 [5] [] []) EVMC_UNDEFINED_INSTRUCTION toy0. Proof. toy_bad. Qed.
Example C33_since : steps_to (toy_setting []) (vm_new 0 0) toy0 Shanghai [0x5F] (toy_msg 10 []) (toy_in 0 [5] [] []) (running Shanghai 1 8 0 [5; 0] [] []) toy0. Proof. toy_one. Qed.
Print Assumptions C33_revision_gating.

(** ** C34 *)
Theorem C34_dispatch_table : length dispatch_table = 256%nat /\
  forall b, is_byte b -> exists o, znth dispatch_table b = Some o /\ (assigned b = true -> opcode_value o = b) /\ (assigned b = false -> o = INVALID).
Proof. exact table_complete. Qed.
(** executing the byte [op]: the behaviour is the one of the reference instruction with this byte (SpecEvm.v), and the ones
    that are not assigned, and only they, fail as invalid *)
Theorem C34_every_byte : forall W (g : setting W), setting_ok g -> forall v w rv code m si op, at_op g v code m si op ->
  exists so w', steps_to g v w rv code m si so w' /\
    one_result rv si (step (g_host g) (nested g) (g_keccak g) m rv code (is_dest code) (frame_in m w si)) so w'.
Proof. exact (@byte_by_byte). Qed.
Theorem C34_invalid : forall W (g : setting W), setting_ok g -> forall v w rv code m si op so w',
  at_op g v code m si op -> steps_to g v w rv code m si so w' -> 0 <= msg_gas m ->
  (so_status so = EVMC_INVALID_INSTRUCTION <-> assigned op = false) /\
  (so_status so = EVMC_INVALID_INSTRUCTION -> failed rv si EVMC_INVALID_INSTRUCTION so /\ w' = w).
Proof. exact (@invalid_fails). Qed.
Example C34_invalid_case : fails_with (toy_setting []) (vm_new 0 0) toy0 London [0xFE] (toy_msg 10 []) (toy_in 0 [5] [] []) EVMC_INVALID_INSTRUCTION toy0. Proof. toy_bad. Qed.
Example C34_unused_case : fails_with (toy_setting []) (vm_new 0 0) toy0 London [0x0C] (toy_msg 10 []) (toy_in 0 [5] [] []) EVMC_INVALID_INSTRUCTION toy0. Proof. toy_bad. Qed.
Print Assumptions C34_dispatch_table.
Print Assumptions C34_every_byte.
Print Assumptions C34_invalid.

(** ** C35 *)
(** the last instruction of an execution, seen by stepping, determines the result of Execute *)
Theorem C35_status : forall W (g : setting W), setting_ok g -> forall v w rv code m, reach g v -> exec_ok (g_code_of g) code m ->
  exists n so w1 so' r w' v', observed g v w rv code m n so w1 /\ so_step so = STEP_RUNNING /\ observed g v w rv code m (S n) so' w' /\
    Execute g v w rv code m = Ok (r, w', v') /\
    cr_status r = so_status so' /\ cr_gas_left r = so_gas so' /\ cr_gas_refund r = so_refund so' /\ cr_output r = so_output so' /\
    let op := code_at code (so_pc so) in
    match so_step so' with
    | STEP_STOPPED => (op = 0x00 \/ op = 0xFF) /\ cr_status r = EVMC_SUCCESS /\ cr_output r = []
    | STEP_RETURNED => op = 0xF3 /\ cr_status r = EVMC_SUCCESS
    | STEP_REVERTED => op = 0xFD /\ cr_status r = EVMC_REVERT
    | STEP_FAILED => In (cr_status r) [EVMC_FAILURE; EVMC_OUT_OF_GAS; EVMC_INVALID_INSTRUCTION; EVMC_UNDEFINED_INSTRUCTION; EVMC_STACK_OVERFLOW;
        EVMC_STACK_UNDERFLOW; EVMC_BAD_JUMP_DESTINATION; EVMC_INVALID_MEMORY_ACCESS; EVMC_CALL_DEPTH_EXCEEDED; EVMC_STATIC_MODE_VIOLATION] /\
        cr_gas_left r = 0 /\ cr_output r = []
    | _ => False
    end.
Proof. exact (@status_map). Qed.
(** code_at is STOP beyond the end of the code: running off the end is the case 0x00 *)
(** [cause] (SpecCause.v): what must be true of the instruction, the message and the stack for each status *)
Theorem C35_cause : forall W (g : setting W), setting_ok g -> forall v w rv code m si op so w',
  at_op g v code m si op -> steps_to g v w rv code m si so w' -> so_step so = STEP_FAILED -> cause m rv code op (si_stack si) (so_status so).
Proof. exact (@failing_cause). Qed.
Theorem C35_run_cause : forall W (g : setting W), setting_ok g -> forall v w rv code m, reach g v -> exec_ok (g_code_of g) code m ->
  exists n so w1 so' r w' v', observed g v w rv code m n so w1 /\ so_step so = STEP_RUNNING /\ observed g v w rv code m (S n) so' w' /\
    Execute g v w rv code m = Ok (r, w', v') /\ reach g v' /\
    cr_status r = so_status so' /\ cr_gas_left r = so_gas so' /\ cr_gas_refund r = so_refund so' /\ cr_output r = so_output so' /\
    In (so_step so') [STEP_STOPPED; STEP_RETURNED; STEP_REVERTED; STEP_FAILED] /\
    (so_step so' = STEP_REVERTED <-> cr_status r = EVMC_REVERT) /\ (so_step so' = STEP_STOPPED \/ so_step so' = STEP_RETURNED <-> cr_status r = EVMC_SUCCESS) /\
    (so_step so' = STEP_FAILED -> cr_gas_left r = 0 /\ cr_output r = [] /\ cr_gas_refund r = so_refund so /\ cause m rv code (code_at code (so_pc so)) (so_stack so) (cr_status r)).
Proof. exact (@run_cause). Qed.
(** a jump to a byte that is not a jump destination, and init code that is too large *)
Example C35_cause_case :
  fails_with (toy_setting []) (vm_new 0 0) toy0 London [0x56; 0x60; 0x5B] (toy_msg 10 []) (toy_in 0 [2] [] []) EVMC_BAD_JUMP_DESTINATION toy0 /\
  fails_with (toy_setting []) (vm_new 0 0) toy0 Shanghai [0xF0] (toy_msg 100000 []) (toy_in 0 [49153; 0; 0] [] []) EVMC_FAILURE toy0.
Proof. split; toy_bad. Qed.
Print Assumptions C35_status.
Print Assumptions C35_cause.
Print Assumptions C35_run_cause.
