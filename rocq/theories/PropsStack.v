(** C09, C17: the stack. *)
From Verif Require Import Base Host SpecEvm SpecVm Vm SpecStep Client SpecHost SpecFees SpecTop
  ClientFacts OpFacts OpFacts2 ApiFacts RefFacts PropFacts PropFacts3 Toy.
From Coq Require Import Lia ZArith List Bool.
Import ListNotations.

(** ** C09 *)
(** [pops], [pushes] (SpecFees.v): elements taken and left by each instruction; [introduced]: instructions of later revisions;
    [modifying]: instructions that a static call may not use *)
Theorem C09_stack_limits : forall W (g : setting W), setting_ok g -> forall v w rv code m si op so w',
  at_op g v code m si op -> steps_to g v w rv code m si so w' ->
  assigned op = true -> (forall since, In (op, since) introduced -> rev_ge rv since = true) -> (In op modifying -> static m = false) ->
  let before := zlen (si_stack si) in let after := before - pops op + pushes op in
  (so_status so = EVMC_STACK_UNDERFLOW <-> before < pops op) /\
  (so_status so = EVMC_STACK_OVERFLOW <-> pops op <= before /\ 1024 < after) /\
  (so_step so = STEP_RUNNING -> zlen (so_stack so) = after /\ 0 <= after <= 1024).
Proof. exact (@stack_limits). Qed.
Example C09_underflow : fails_with (toy_setting []) (vm_new 0 0) toy0 London [0x01] (toy_msg 10 []) (toy_in 0 [5] [] []) EVMC_STACK_UNDERFLOW toy0. Proof. toy_bad. Qed.
(** DUP1 with a full stack *)
Example C09_overflow : fails_with (toy_setting []) (vm_new 0 0) toy0 London [0x80] (toy_msg 10 []) (toy_in 0 (repeat 5 1024) [] []) EVMC_STACK_OVERFLOW toy0. Proof. toy_bad. Qed.
(** SWAP1 with a full stack *)
Example C09_full : exists so, steps_to (toy_setting []) (vm_new 0 0) toy0 London [0x90] (toy_msg 10 []) (toy_in 0 (repeat 5 1024) [] []) so toy0 /\ so_step so = STEP_RUNNING.
Proof. eexists. split; [toy_one|reflexivity]. Qed.

Theorem C09_height : forall W (g : setting W), setting_ok g -> forall v w rv code m n so w',
  reach g v -> exec_ok (g_code_of g) code m -> observed g v w rv code m n so w' -> so_step so = STEP_RUNNING -> zlen (so_stack so) <= 1024.
Proof. exact (@run_height). Qed.

(** [with_bufs bufs tick g]: the same environment with other contents of recycled buffers (and other clock readings) *)
Theorem C09_recycled_execute : forall W (g : setting W), setting_ok g -> forall bufs tick v v2 w rv code m,
  (forall n, zlen (bufs n) = 1024) -> reach g v -> reach (with_bufs bufs tick g) v2 -> exec_ok (g_code_of g) code m ->
  exists r w' v' v2', Execute g v w rv code m = Ok (r, w', v') /\ Execute (with_bufs bufs tick g) v2 w rv code m = Ok (r, w', v2').
Proof. exact (@recycled_execute). Qed.
Theorem C09_recycled_step : forall W (g : setting W), setting_ok g -> forall bufs tick v v2 w rv code m si,
  (forall n, zlen (bufs n) = 1024) -> reach g v -> reach (with_bufs bufs tick g) v2 -> exec_ok (g_code_of g) code m ->
  step_ok code m si -> si_status si = STEP_RUNNING ->
  exists so so2 w' v' v2', StepN g v w rv code m si = Ok (so, w', v') /\ StepN (with_bufs bufs tick g) v2 w rv code m si = Ok (so2, w', v2') /\
    (so_step so <> STEP_FAILED -> so2 = so) /\
    (so_step so = STEP_FAILED -> so_step so2 = STEP_FAILED /\ so_status so2 = so_status so /\ so_gas so2 = so_gas so /\ so_refund so2 = so_refund so /\
       so_mem so2 = so_mem so /\ zlen (so_stack so2) = zlen (so_stack so) /\ (si_steps si = 1 -> so_stack so2 = so_stack so)).
Proof. exact (@recycled_step). Qed.
(** fresh buffers in one environment, used ones in the other *)
Example C09_recycled_case : setting_ok (toy_setting []) /\ reach (with_bufs (fun _ => repeat None 1024) (fun _ => 0) (toy_setting [])) (vm_new 0 0) /\
  g_bufs (with_bufs (fun _ => repeat None 1024) (fun _ => 0) (toy_setting [])) 5 <> g_bufs (toy_setting []) 5.
Proof. split; [apply toy_ok; [constructor|unfold zlen; cbn; lia]|]. split; [apply reach_new|discriminate]. Qed.
Print Assumptions C09_stack_limits.
Print Assumptions C09_height.
Print Assumptions C09_recycled_execute.
Print Assumptions C09_recycled_step.

(** ** C17 *)
(** stacks are listed from the bottom to the top *)
Theorem C17_push : forall W (g : setting W), setting_ok g -> forall v w rv code m si n,
  1 <= n <= 32 -> at_op g v code m si (0x5F + n) -> zlen (si_stack si) < 1024 -> 3 <= msg_gas m ->
  steps_to g v w rv code m si (running rv (si_pc si + 1 + n) (msg_gas m - 3) (si_refunds si)
    (si_stack si ++ [be (data_bytes code (si_pc si + 1) n)]) (whole_words (si_mem si)) (si_ret si)) w.
Proof. exact (@op_push). Qed.
Theorem C17_dup : forall W (g : setting W), setting_ok g -> forall v w rv code m si n rest x above,
  1 <= n <= 16 -> at_op g v code m si (0x7F + n) -> si_stack si = rest ++ x :: above -> zlen above = n - 1 -> zlen (si_stack si) < 1024 -> 3 <= msg_gas m ->
  steps_to g v w rv code m si (running rv (si_pc si + 1) (msg_gas m - 3) (si_refunds si) (si_stack si ++ [x]) (whole_words (si_mem si)) (si_ret si)) w.
Proof. exact (@op_dup). Qed.
Theorem C17_swap : forall W (g : setting W), setting_ok g -> forall v w rv code m si n rest x mid y,
  1 <= n <= 16 -> at_op g v code m si (0x8F + n) -> si_stack si = rest ++ x :: mid ++ [y] -> zlen mid = n - 1 -> 3 <= msg_gas m ->
  steps_to g v w rv code m si (running rv (si_pc si + 1) (msg_gas m - 3) (si_refunds si) (rest ++ y :: mid ++ [x]) (whole_words (si_mem si)) (si_ret si)) w.
Proof. exact (@op_swap). Qed.
Theorem C17_pop : forall W (g : setting W), setting_ok g -> forall v w rv code m si rest x,
  at_op g v code m si 0x50 -> si_stack si = rest ++ [x] -> 2 <= msg_gas m ->
  steps_to g v w rv code m si (running rv (si_pc si + 1) (msg_gas m - 2) (si_refunds si) rest (whole_words (si_mem si)) (si_ret si)) w.
Proof. exact (@op_pop). Qed.
(** PUSH0 *)
Theorem C17_push0 : forall W (g : setting W), setting_ok g -> forall v w rv code m si,
  at_op g v code m si 0x5F -> rev_ge rv Shanghai = true -> zlen (si_stack si) < 1024 -> 2 <= msg_gas m ->
  steps_to g v w rv code m si (running rv (si_pc si + 1) (msg_gas m - 2) (si_refunds si) (si_stack si ++ [0]) (whole_words (si_mem si)) (si_ret si)) w.
Proof. exact (@op_push0). Qed.
Example C17_push_case : steps_to (toy_setting []) (vm_new 0 0) toy0 London [0x61; 2; 7; 9] (toy_msg 10 []) (toy_in 0 [5] [] []) (running London 3 7 0 [5; 519] [] []) toy0. Proof. toy_one. Qed.
Example C17_dup_case : steps_to (toy_setting []) (vm_new 0 0) toy0 London [0x82] (toy_msg 10 []) (toy_in 0 [4; 5; 6; 7] [] []) (running London 1 7 0 [4; 5; 6; 7; 5] [] []) toy0. Proof. toy_one. Qed.
Example C17_swap_case : steps_to (toy_setting []) (vm_new 0 0) toy0 London [0x91] (toy_msg 10 []) (toy_in 0 [4; 5; 6; 7] [] []) (running London 1 7 0 [4; 7; 6; 5] [] []) toy0. Proof. toy_one. Qed.
Print Assumptions C17_push.
Print Assumptions C17_dup.
Print Assumptions C17_swap.
Print Assumptions C17_pop.
Print Assumptions C17_push0.
