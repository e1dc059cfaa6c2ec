(** C43 - C50: options, effects, block information, refunds of unsuccessful executions, the Go adapter, logs, self-destruction,
    pointers. *)
From Verif Require Import Base Host Memory SpecEvm SpecVm Vm SpecStep Client SpecHost SpecCause GoAdapter SpecTop MemFacts ClientFacts ApiFacts OpFacts3 OpFacts4
  PropFacts PropFacts2 PropFacts3 PropFacts9 PropFacts10 Toy.
From Coq Require Import Lia ZArith List Bool String.
Import ListNotations.
Local Open Scope list_scope.

(** ** C43 *)
(** [the_options]: the five names and what they switch; [same_state]: caches, log, profilers, clock and buffers *)
Theorem C43_accepted : forall v name (on : vm -> bool) (b : bool),
  In (name, on) [("logging", v_logging); ("analysis_cache", v_analysis); ("sha3_cache", v_sha3); ("profiling", v_profiling); ("profiling_external", v_profext)]%string ->
  exists v', set_option name (if b then "true" else "false")%string v = (OPTION_SUCCESS, v') /\ on v' = b /\ same_state v v' /\
    forall name2 on2, In (name2, on2) the_options -> name2 <> name -> on2 v' = on2 v.
Proof. exact option_set. Qed.
Theorem C43_bad_value : forall v name on value, In (name, on) the_options -> value <> "true"%string -> value <> "false"%string ->
  set_option name value v = (OPTION_INVALID_VALUE, v).
Proof. exact option_bad_value. Qed.
Theorem C43_bad_name : forall v name value,
  ~ In name ["logging"; "analysis_cache"; "sha3_cache"; "profiling"; "profiling_external"]%string -> set_option name value v = (OPTION_INVALID_NAME, v).
Proof. exact option_bad_name. Qed.
Example C43_case : forall v, set_option "profiling" "yes" v = (OPTION_INVALID_VALUE, v) /\ set_option "Logging" "true" v = (OPTION_INVALID_NAME, v) /\
  v_sha3 (snd (set_option "sha3_cache" "false" v)) = false.
Proof. intros. repeat split. Qed.
Print Assumptions C43_accepted.
Print Assumptions C43_bad_value.
Print Assumptions C43_bad_name.

(** ** C44 *)
(** [warms H w w']: [w'] differs from [w] at most by accounts and slots having been accessed *)
Theorem C44_failing_instruction : forall W (g : setting W), setting_ok g -> forall v w rv code m si op so w',
  at_op g v code m si op -> steps_to g v w rv code m si so w' -> so_step so = STEP_FAILED -> op <> 0x55 -> warms (g_host g) w w'.
Proof. exact (@failing_warms). Qed.
Theorem C44_failing_sstore_without_stipend : forall W (g : setting W), setting_ok g -> forall v w rv code m si so w',
  at_op g v code m si 0x55 -> steps_to g v w rv code m si so w' -> msg_gas m <= 2300 -> so_step so = STEP_FAILED /\ w' = w.
Proof. exact (@cheap_sstore). Qed.
(** ... but an SSTORE that has more than 2300 gas and cannot pay has already written *)
Theorem C44_sstore_refuted : exists w', fails_with (toy_setting []) (vm_new 0 0) toy0 London [0x55] (toy_msg 2400 []) (toy_in 0 [5; 1] [] []) EVMC_OUT_OF_GAS w' /\
  h_get_storage toy_host toy0 0x11 1 = 7 /\ h_get_storage toy_host w' 0x11 1 = 5.
Proof. exact sstore_writes. Qed.
Example C44_log_case : fails_with (toy_setting []) (vm_new 0 0) toy0 London [0xA0] (toy_msg 380 []) (toy_in 0 [1; 0] [] []) EVMC_OUT_OF_GAS toy0.
Proof. toy_bad. Qed.
Print Assumptions C44_failing_instruction.
Print Assumptions C44_failing_sstore_without_stipend.
Print Assumptions C44_sstore_refuted.

(** ** C45 *)
Theorem C45_blockhash : forall W (g : setting W), setting_ok g -> forall v w rv code m si rest n,
  at_op g v code m si 0x40 -> si_stack si = rest ++ [n] -> 20 <= msg_gas m ->
  let cur := tx_number (h_tx_context (g_host g) w) in
  steps_to g v w rv code m si (running rv (si_pc si + 1) (msg_gas m - 20) (si_refunds si)
    (rest ++ [if (cur - 256 <=? n) && (n <? cur) then h_block_hash (g_host g) w n else 0]) (whole_words (si_mem si)) (si_ret si)) w.
Proof. exact (@op_blockhash). Qed.
Theorem C45_blobhash : forall W (g : setting W), setting_ok g -> forall v w rv code m si rest i,
  at_op g v code m si 0x49 -> rev_ge rv Cancun = true -> si_stack si = rest ++ [i] -> 3 <= msg_gas m ->
  let hs := tx_blob_hashes (h_tx_context (g_host g) w) in
  steps_to g v w rv code m si (running rv (si_pc si + 1) (msg_gas m - 3) (si_refunds si)
    (rest ++ [if i <? zlen hs then nth (Z.to_nat i) hs 0 else 0]) (whole_words (si_mem si)) (si_ret si)) w.
Proof. exact (@op_blobhash). Qed.
(** the current block is 1000 *)
Example C45_case1 : steps_to (toy_setting []) (vm_new 0 0) toy0 London [0x40] (toy_msg 100 []) (toy_in 0 [744] [] []) (running London 1 80 0 [744] [] []) toy0.
Proof. toy_one. Qed.
Example C45_case2 : steps_to (toy_setting []) (vm_new 0 0) toy0 London [0x40] (toy_msg 100 []) (toy_in 0 [743] [] []) (running London 1 80 0 [0] [] []) toy0.
Proof. toy_one. Qed.
Example C45_case3 : steps_to (toy_setting []) (vm_new 0 0) toy0 Cancun [0x49] (toy_msg 100 []) (toy_in 0 [1] [] []) (running Cancun 1 97 0 [12] [] []) toy0.
Proof. toy_one. Qed.
Print Assumptions C45_blockhash.
Print Assumptions C45_blobhash.

(** ** C46 *)
(** the refund reported by a failing execution is the counter before the failing instruction (as StepN shows it) *)
Theorem C46_failed : forall W (g : setting W), setting_ok g -> forall v w rv code m, reach g v -> exec_ok (g_code_of g) code m ->
  exists n so w1 r w' v', observed g v w rv code m n so w1 /\ so_step so = STEP_RUNNING /\ Execute g v w rv code m = Ok (r, w', v') /\
    (cr_status r <> EVMC_SUCCESS -> cr_status r <> EVMC_REVERT -> cr_gas_refund r = so_refund so).
Proof. exact (@unsuccessful_refund). Qed.
(** it need not be zero: PUSH1 0 PUSH1 1 SSTORE, then REVERT or an undefined instruction *)
Theorem C46_refuted : exists v1 v2 w1 w2,
  Execute (toy_setting []) (vm_new 0 0) toy0 London [0x60; 0; 0x60; 1; 0x55; 0x60; 0; 0x60; 0; 0xFD] (toy_msg 30000 []) =
    Ok (mkRes EVMC_REVERT 24988 4800 [] 0, w1, v1) /\
  Execute (toy_setting []) (vm_new 0 0) toy0 London [0x60; 0; 0x60; 1; 0x55; 0xFE] (toy_msg 30000 []) =
    Ok (mkRes EVMC_INVALID_INSTRUCTION 0 4800 [] 0, w2, v2).
Proof. exact refund_on_failure. Qed.
(** and the caller adds it to its own: a successful execution that calls the first of these programs reports a refund although
    its host has undone the write *)
Theorem C46_caller_refuted : exists v' w',
  Execute (toy_setting [0x60; 0; 0x60; 1; 0x55; 0x60; 0; 0x60; 0; 0xFD]) (vm_new 0 0) toy0 London
    [0x60; 0; 0x60; 0; 0x60; 0; 0x60; 0; 0x60; 0; 0x60; 0x77; 0x61; 0x75; 0x30; 0xF1; 0x00] (toy_msg 50000 []) = Ok (mkRes EVMC_SUCCESS 42367 4800 [] 0, w', v') /\
  h_get_storage toy_host w' 0x77 1 = h_get_storage toy_host toy0 0x77 1.
Proof. exact refund_leaks. Qed.
Print Assumptions C46_failed.
Print Assumptions C46_refuted.
Print Assumptions C46_caller_refuted.

(** ** C47 *)
(** [Run]: the Go Interpreter's Run; its outcome is [inl] a result or [inr] an error.  The last instruction executed is the one
    at [so_pc so]: it ends the execution as StepN shows in [so'] *)
Theorem C47_run : forall W (g : setting W), setting_ok g -> forall v w p rv,
  let code := p_code p in
  let m := mkMsg K_CALL (if p_static p then 1 else 0) (p_depth p) (p_gas p) (p_recipient p) (p_sender p) (p_input p) (p_value p) 0 0 (p_code_hash p) in
  reach g v -> exec_ok (g_code_of g) code m -> In (p_revision p, rv) [(0, Istanbul); (1, Berlin); (2, London); (3, Paris); (4, Shanghai); (5, Cancun)] ->
  exists n so w1 so' o w' v',
    observed g v w rv code m n so w1 /\ so_step so = STEP_RUNNING /\ observed g v w rv code m (S n) so' w' /\
    Run g v w p = Ok (o, w', v') /\ reach g v' /\
    match so_step so' with
    | STEP_STOPPED | STEP_RETURNED => o = inl (mkGo true (so_output so') (so_gas so') (so_refund so'))
    | STEP_REVERTED => o = inl (mkGo false (so_output so') (so_gas so') (so_refund so'))
    | STEP_FAILED => o = inl (mkGo false [] 0 0) \/
        (o = inr (ErrUnexpected EVMC_FAILURE) /\ rev_ge rv Shanghai = true /\ (code_at code (so_pc so) = 0xF0 \/ code_at code (so_pc so) = 0xF5) /\
         exists rest size off value, so_stack so = rest ++ [size; off; value] /\ 49152 < size)
    | _ => False
    end.
Proof. exact (@go_run). Qed.
Theorem C47_unsupported_revision : forall W (g : setting W) v w p, ~ 0 <= p_revision p <= 5 -> Run g v w p = Ok (inr ErrUnsupportedRevision, w, v).
Proof. exact (@go_unsupported). Qed.
(** so the one failure of a program that Run reports as an error of the VM is the creation of a contract with more than 49152 bytes
    of init code: PUSH3 0xC001 PUSH1 0 PUSH1 0 CREATE in Shanghai *)
Theorem C47_refuted : exists w' v', Run (toy_setting []) (vm_new 0 0) toy0 (mkParams 4 false 0 100000 0x11 0x22 [] 0 None [0x62; 0; 0xC0; 1; 0x60; 0; 0x60; 0; 0xF0]) =
  Ok (inr (ErrUnexpected EVMC_FAILURE), w', v').
Proof. exact go_vm_error. Qed.
Print Assumptions C47_run.
Print Assumptions C47_unsupported_revision.
Print Assumptions C47_refuted.

(** ** C48 *)
Theorem C48_log : forall W (g : setting W), setting_ok g -> forall v w rv code m si n rest topics len off,
  0 <= n <= 4 -> at_op g v code m si (0xA0 + n) -> static m = false -> si_stack si = rest ++ rev topics ++ [len; off] -> zlen topics = n ->
  let cost := 375 * (n + 1) + 8 * len + growth_cost (si_mem si) off len in
  (cost <= msg_gas m -> exists mem',
     steps_to g v w rv code m si (running rv (si_pc si + 1) (msg_gas m - cost) (si_refunds si) rest mem' (si_ret si))
       (h_emit_log (g_host g) w (msg_recipient m) (data_bytes (si_mem si) off len) topics) /\
     overwritten (si_mem si) mem' (grown (si_mem si) off len) 0 0 (fun _ => 0)) /\
  (msg_gas m < cost -> out_of_gas g v w rv code m si).
Proof. exact (@op_log). Qed.
(** LOG2 of two bytes across the end of memory *)
Example C48_case : steps_to (toy_setting []) (vm_new 0 0) toy0 London [0xA2] (toy_msg 2000 []) (toy_in 0 [9; 66; 55; 2; 31] (repeat 7 32) [])
  (running London 1 856 0 [9] (repeat 7 32 ++ repeat 0 32) []) (mkToy [] [] [] [(0x11, [7; 0], [55; 66])] 100 []).
Proof. toy_one. Qed.
Print Assumptions C48_log.

(** ** C49 *)
Theorem C49_selfdestruct : forall W (g : setting W), setting_ok g -> forall v w rv code m si rest a cold w1 first w2,
  at_op g v code m si 0xFF -> static m = false -> si_stack si = rest ++ [a] ->
  let b := a mod 2 ^ 160 in
  beneficiary_cold (g_host g) rv w b = (cold, w1) -> h_selfdestruct (g_host g) w1 (msg_recipient m) b = (first, w2) ->
  let cost := 5000 + (if (0 <? h_get_balance (g_host g) w (msg_recipient m)) && negb (h_account_exists (g_host g) w b) then 25000 else 0) + (if cold then 2600 else 0) in
  (cost <= msg_gas m ->
     steps_to g v w rv code m si (ended STEP_STOPPED EVMC_SUCCESS rv (si_pc si + 1) (msg_gas m - cost)
       (si_refunds si + (if first && negb (rev_ge rv London) then 24000 else 0)) rest (whole_words (si_mem si)) []) w2) /\
  (5000 <= msg_gas m < cost -> fails_with g v w rv code m si EVMC_OUT_OF_GAS w1) /\
  (msg_gas m < 5000 -> out_of_gas g v w rv code m si).
Proof. exact (@op_selfdestruct). Qed.
Example C49_case : steps_to (toy_setting []) (vm_new 0 0) toy0 Berlin [0xFF] (toy_msg 40000 []) (toy_in 0 [2 ^ 130] [] [])
  (ended STEP_STOPPED EVMC_SUCCESS Berlin 1 7400 24000 [] [] []) (mkToy [] [] [2 ^ 130] [] 100 [0x11]).
Proof. toy_one. Qed.
Print Assumptions C49_selfdestruct.

(** ** C50 *)
(** [StrictExecute] differs from [Execute] in that it also stops (with [Undef UB_ptr_range]) when a pointer outside the memory buffer
    or the stack is formed without being used.  Accesses of at least one byte do not form such pointers ... *)
Theorem C50_nonempty_span : forall mem off n, mem_ok mem -> 0 < n -> 0 <= off -> off + n < 2 ^ 62 ->
  mem_get_span true mem off n = mem_get_span false mem off n /\ mem_write_to true mem n off = mem_write_to false mem n off.
Proof. exact span_strict. Qed.
Theorem C50_nonempty_read_from : forall mem buf off n, mem_ok mem -> 0 <= off ->
  (0 < zlen buf -> off + zlen buf < 2 ^ 62 -> mem_read_from true mem buf off = mem_read_from false mem buf off) /\
  (0 < n -> off + n < 2 ^ 62 -> mem_read_from_with_size true mem buf off n = mem_read_from_with_size false mem buf off n).
Proof. exact read_from_strict. Qed.
Theorem C50_nonempty_copy : forall mem dst src n, mem_ok mem -> 0 < n -> 0 <= dst -> dst + n < 2 ^ 62 -> 0 <= src -> src + n < 2 ^ 62 ->
  mem_copy true mem dst src n = mem_copy false mem dst src n.
Proof. exact copy_strict. Qed.
(** ... but empty ones do, as does the stack pointer of an instruction that fails: PUSH1 0 PUSH1 64 RETURN, and POP on the empty stack *)
Theorem C50_refuted :
  StrictExecute (toy_setting []) (vm_new 0 0) toy0 London [0x60; 0; 0x60; 64; 0xF3] (toy_msg 100 []) = Undef UB_ptr_range /\
  StrictExecute (toy_setting []) (vm_new 0 0) toy0 London [0x50] (toy_msg 100 []) = Undef UB_ptr_range /\
  (exists v', Execute (toy_setting []) (vm_new 0 0) toy0 London [0x60; 0; 0x60; 64; 0xF3] (toy_msg 100 []) = Ok (mkRes EVMC_SUCCESS 94 0 [] 0, toy0, v')) /\
  (exists v', Execute (toy_setting []) (vm_new 0 0) toy0 London [0x50] (toy_msg 100 []) = Ok (mkRes EVMC_STACK_UNDERFLOW 0 0 [] 0, toy0, v')).
Proof. exact strict_refuted. Qed.
Print Assumptions C50_nonempty_span.
Print Assumptions C50_nonempty_read_from.
Print Assumptions C50_nonempty_copy.
Print Assumptions C50_refuted.
