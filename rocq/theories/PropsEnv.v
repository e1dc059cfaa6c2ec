(** C52 - C55: instructions that ask the message, the transaction and the host; conditions of all instructions. *)
From Verif Require Import Base Host SpecEvm SpecVm Vm SpecStep SpecOps SpecHost SpecFees Client ClientFacts OpFacts OpFacts2 OpFacts3 FeeFacts Toy PropFacts.
From Coq Require Import Lia ZArith List Bool.
Import ListNotations.

(** ** C52 *)
(** [environment H w m code]: table of op code, gas, first revision and pushed value *)
Theorem C52_environment : forall W (g : setting W), setting_ok g -> forall v w rv code m si op fee since x,
  In (op, fee, since, x) (environment (g_host g) w m code) -> at_op g v code m si op -> rev_ge rv since = true ->
  zlen (si_stack si) < 1024 -> fee <= msg_gas m ->
  steps_to g v w rv code m si (running rv (si_pc si + 1) (msg_gas m - fee) (si_refunds si) (si_stack si ++ [x]) (whole_words (si_mem si)) (si_ret si)) w.
Proof. exact (@op_env). Qed.
(** PC, MSIZE, GAS (after the instruction itself is paid), RETURNDATASIZE *)
Theorem C52_machine : forall W (g : setting W), setting_ok g -> forall v w rv code m si op x,
  In (op, x) [(0x58, si_pc si); (0x59, zlen (whole_words (si_mem si))); (0x5A, msg_gas m - 2); (0x3D, zlen (si_ret si))] ->
  at_op g v code m si op -> zlen (si_stack si) < 1024 -> 2 <= msg_gas m ->
  steps_to g v w rv code m si (running rv (si_pc si + 1) (msg_gas m - 2) (si_refunds si) (si_stack si ++ [x]) (whole_words (si_mem si)) (si_ret si)) w.
Proof. exact (@op_state). Qed.
(** SELFBALANCE, and CODESIZE of a code with a truncated PUSH *)
Example C52_case :
  steps_to (toy_setting []) (vm_new 0 0) toy0 London [0x47] (toy_msg 30 []) (toy_in 0 [1] [] []) (running London 1 25 0 [1; 100] [] []) toy0 /\
  steps_to (toy_setting []) (vm_new 0 0) toy0 London [0x38; 0x62] (toy_msg 30 []) (toy_in 0 [] [] []) (running London 1 28 0 [2] [] []) toy0 /\
  steps_to (toy_setting []) (vm_new 0 0) toy0 London [0x5A] (toy_msg 30 []) (toy_in 0 [] [] []) (running London 1 28 0 [28] [] []) toy0.
Proof. repeat split; toy_one. Qed.
Print Assumptions C52_environment.
Print Assumptions C52_machine.

(** ** C53 *)
(** [account_access]: 700 before Berlin, then 2600 for the first access and 100 for later ones, as the host says *)
Theorem C53_account : forall W (g : setting W), setting_ok g -> forall v w rv code m si op q rest a c w1,
  In (op, q) [(0x31, h_get_balance (g_host g)); (0x3B, h_get_code_size (g_host g)); (0x3F, h_get_code_hash (g_host g))] -> at_op g v code m si op ->
  si_stack si = rest ++ [a] -> account_access (g_host g) rv w (a mod 2 ^ 160) = (c, w1) ->
  (c <= msg_gas m ->
     steps_to g v w rv code m si (running rv (si_pc si + 1) (msg_gas m - c) (si_refunds si) (rest ++ [q w1 (a mod 2 ^ 160)]) (whole_words (si_mem si)) (si_ret si)) w1) /\
  (0 <= msg_gas m < c -> fails_with g v w rv code m si EVMC_OUT_OF_GAS w1).
Proof. exact (@op_account). Qed.
(** the same account, first cold, then warm; bits above 160 are ignored *)
Example C53_case :
  steps_to (toy_setting []) (vm_new 0 0) toy0 London [0x31] (toy_msg 3000 []) (toy_in 0 [2 ^ 160 + 9] [] []) (running London 1 400 0 [100] [] []) (mkToy [] [] [9] [] 100 []) /\
  steps_to (toy_setting []) (vm_new 0 0) (mkToy [] [] [9] [] 100 []) London [0x3B] (toy_msg 3000 []) (toy_in 0 [9] [] []) (running London 1 2900 0 [3] [] []) (mkToy [] [] [9; 9] [] 100 []) /\
  fails_with (toy_setting []) (vm_new 0 0) toy0 London [0x3F] (toy_msg 2599 []) (toy_in 0 [9] [] []) EVMC_OUT_OF_GAS (mkToy [] [] [9] [] 100 []).
Proof. split; [toy_one|split; [toy_one|toy_bad]]. Qed.
Print Assumptions C53_account.

(** ** C54 *)
(** [slot_access]: 800 before Berlin, then 2100 for the first access and 100 for later ones, as the host says *)
Theorem C54_sload : forall W (g : setting W), setting_ok g -> forall v w rv code m si rest k c w1, at_op g v code m si 0x54 ->
  si_stack si = rest ++ [k] -> slot_access (g_host g) rv w (msg_recipient m) k = (c, w1) ->
  (c <= msg_gas m ->
     steps_to g v w rv code m si (running rv (si_pc si + 1) (msg_gas m - c) (si_refunds si) (rest ++ [h_get_storage (g_host g) w1 (msg_recipient m) k])
       (whole_words (si_mem si)) (si_ret si)) w1) /\
  (0 <= msg_gas m < c -> fails_with g v w rv code m si EVMC_OUT_OF_GAS w1).
Proof. exact (@op_sload). Qed.
Theorem C54_tload : forall W (g : setting W), setting_ok g -> forall v w rv code m si rest k,
  at_op g v code m si 0x5C -> rev_ge rv Cancun = true -> si_stack si = rest ++ [k] -> 100 <= msg_gas m ->
  steps_to g v w rv code m si (running rv (si_pc si + 1) (msg_gas m - 100) (si_refunds si) (rest ++ [h_get_transient (g_host g) w (msg_recipient m) k])
    (whole_words (si_mem si)) (si_ret si)) w.
Proof. exact (@op_tload). Qed.
Theorem C54_tstore : forall W (g : setting W), setting_ok g -> forall v w rv code m si rest k x,
  at_op g v code m si 0x5D -> rev_ge rv Cancun = true -> static m = false -> si_stack si = rest ++ [x; k] -> 100 <= msg_gas m ->
  steps_to g v w rv code m si (running rv (si_pc si + 1) (msg_gas m - 100) (si_refunds si) rest (whole_words (si_mem si)) (si_ret si))
    (h_set_transient (g_host g) w (msg_recipient m) k x).
Proof. exact (@op_tstore). Qed.
Example C54_case :
  steps_to (toy_setting []) (vm_new 0 0) toy0 London [0x54] (toy_msg 3000 []) (toy_in 0 [1] [] []) (running London 1 900 0 [7] [] []) (mkToy [] [(0x11, 1)] [] [] 100 []) /\
  steps_to (toy_setting []) (vm_new 0 0) toy0 Istanbul [0x54] (toy_msg 3000 []) (toy_in 0 [1] [] []) (running Istanbul 1 2200 0 [7] [] []) toy0 /\
  fails_with (toy_setting []) (vm_new 0 0) toy0 London [0x54] (toy_msg 2099 []) (toy_in 0 [1] [] []) EVMC_OUT_OF_GAS (mkToy [] [(0x11, 1)] [] [] 100 []).
Proof. split; [toy_one|split; [toy_one|toy_bad]]. Qed.
Print Assumptions C54_sload.
Print Assumptions C54_tload.
Print Assumptions C54_tstore.

(** ** C55 *)
(** [first_check], [pops], [pushes], [base_fee]: SpecFees.v *)
Theorem C55_conditions : forall W (g : setting W), setting_ok g -> forall v w rv code m si op so w',
  at_op g v code m si op -> steps_to g v w rv code m si so w' ->
  match first_check m rv (zlen (si_stack si)) op with
  | Some sc => failed rv si sc so /\ w' = w
  | None => ~ In (so_status so) [EVMC_INVALID_INSTRUCTION; EVMC_UNDEFINED_INSTRUCTION; EVMC_STACK_UNDERFLOW; EVMC_STACK_OVERFLOW] /\
      (so_step so = STEP_RUNNING -> zlen (so_stack so) = zlen (si_stack si) - pops op + pushes op) /\
      (so_step so <> STEP_FAILED -> 0 <= so_gas so <= msg_gas m - base_fee op)
  end.
Proof. exact (@check_order). Qed.
(** an ADD with neither operands nor gas lacks operands first; one with operands lacks gas *)
Example C55_case :
  fails_with (toy_setting []) (vm_new 0 0) toy0 London [0x01] (toy_msg 2 []) (toy_in 0 [5] [] []) EVMC_STACK_UNDERFLOW toy0 /\
  fails_with (toy_setting []) (vm_new 0 0) toy0 London [0x01] (toy_msg 2 []) (toy_in 0 [5; 6] [] []) EVMC_OUT_OF_GAS toy0 /\
  steps_to (toy_setting []) (vm_new 0 0) toy0 London [0x01] (toy_msg 3 []) (toy_in 0 [5; 6] [] []) (running London 1 0 0 [11] [] []) toy0.
Proof. split; [toy_bad|split; [toy_bad|toy_one]]. Qed.
Print Assumptions C55_conditions.
