(** C36 - C39: stepping. *)
From Verif Require Import Base Host SpecEvm SpecVm Vm SpecStep StepFacts Client SpecHost SpecTop MemFacts ClientFacts ApiFacts PropFacts PropFacts8 Toy.
From Coq Require Import Lia ZArith List Bool.
Import ListNotations.

(** ** C36 *)
(** [steps_to … so w]: the call returns [so] and leaves the world [w] as it is *)
Theorem C36_zero_steps : forall W (g : setting W), setting_ok g -> forall v w rv code m si,
  reach g v -> exec_ok (g_code_of g) code m -> step_ok code m si -> si_status si <> STEP_RUNNING \/ si_steps si <= 0 ->
  exists so, steps_to g v w rv code m si so w /\ so_pc so = si_pc si /\ so_stack so = si_stack si /\ so_refund so = si_refunds si /\
    so_mem so = whole_words (si_mem si) /\
    (si_status si = STEP_RUNNING -> so = running rv (si_pc si) (msg_gas m) (si_refunds si) (si_stack si) (whole_words (si_mem si)) (si_ret si)) /\
    (si_status si = STEP_RETURNED -> so = ended STEP_RETURNED EVMC_SUCCESS rv (si_pc si) (msg_gas m) (si_refunds si) (si_stack si) (whole_words (si_mem si)) (si_ret si)) /\
    (si_status si = STEP_REVERTED -> so = ended STEP_REVERTED EVMC_REVERT rv (si_pc si) (msg_gas m) (si_refunds si) (si_stack si) (whole_words (si_mem si)) (si_ret si)) /\
    (si_status si = STEP_STOPPED -> so = ended STEP_STOPPED EVMC_SUCCESS rv (si_pc si) (msg_gas m) (si_refunds si) (si_stack si) (whole_words (si_mem si)) []) /\
    (si_status si = STEP_FAILED -> so = ended STEP_FAILED EVMC_INVALID_INSTRUCTION rv (si_pc si) 0 (si_refunds si) (si_stack si) (whole_words (si_mem si)) []).
Proof. exact (@step_identity). Qed.
Example C36_case : forall infos, match StepN (toy_setting []) (vm_with infos 0 0) toy0 London [0x01] (toy_msg 100 []) (mkIn STEP_RUNNING 0 5 [1; 2; 3] [9] [8] 0) with
  | Ok (so, w, _) => so = running London 0 100 5 [1; 2; 3] (9 :: repeat 0 31) [8] /\ w = toy0
  | _ => False
  end.
Proof. intros. vm_compute. auto. Qed.
Print Assumptions C36_zero_steps.

(** ** C37 *)
(** [counted si n] asks for [n] steps; [continue_in so1 k] feeds the result [so1] into a call for [k] more.  [agree] is equality
    unless the run fails, when only program counter and stack may differ *)
Theorem C37_composes : forall W (g : setting W), setting_ok g -> forall v va w rv code m si n k,
  reach g v -> reach g va -> exec_ok (g_code_of g) code m -> step_ok code m si -> si_status si = STEP_RUNNING -> 0 <= n -> 0 <= k ->
  exists so w' so1 w1 v1,
    steps_to g va w rv code m (counted si (n + k)) so w' /\
    StepN g v w rv code m (counted si n) = Ok (so1, w1, v1) /\ reach g v1 /\
    (so_step so1 <> STEP_RUNNING -> agree so so1 /\ w' = w1) /\
    (so_step so1 = STEP_RUNNING -> exists so2,
       steps_to g v1 w1 rv code (with_msg_gas (so_gas so1) m) (continue_in so1 k) so2 w' /\ agree so so2).
Proof. exact (@step_split). Qed.
(** PUSH1 5 PUSH1 0 MSTORE STOP in 2 and 2 steps *)
Example C37_case : forall infos, let code := [0x60; 5; 0x60; 0; 0x52; 0x00] in let si := mkIn STEP_RUNNING 0 0 [] [] [] 0 in
  match StepN (toy_setting []) (vm_with infos 0 0) toy0 London code (toy_msg 100 []) (counted si 4) with
  | Ok (so, w, _) =>
    match StepN (toy_setting []) (vm_with infos 0 0) toy0 London code (toy_msg 100 []) (counted si 2) with
    | Ok (so1, w1, v1) => so1 = running London 4 94 0 [5; 0] [] [] /\
      match StepN (toy_setting []) v1 w1 London code (toy_msg 94 []) (continue_in so1 2) with
      | Ok (so2, w2, _) => so2 = so /\ so = ended STEP_STOPPED EVMC_SUCCESS London 6 88 0 [] (repeat 0 31 ++ [5]) [] /\ w2 = w
      | _ => False
      end
    | _ => False
    end
  | _ => False
  end.
Proof. intros. vm_compute. auto. Qed.
Print Assumptions C37_composes.

(** ** C38 *)
(** [drive … ns]: a client that keeps calling StepN, with the step counts [ns], feeding each result into the next call *)
Theorem C38_stepping_is_executing : forall W (g : setting W), setting_ok g -> forall v v0 w rv code m ns,
  reach g v -> reach g v0 -> exec_ok (g_code_of g) code m -> (Z.to_nat (msg_gas m) < total ns)%nat ->
  exists so w' v' v0', drive (fun v w m si => StepN g v w rv code m si) ns v w m (start_out m rv) = Ok (so, w', v') /\
    Execute g v0 w rv code m = Ok (mkRes (so_status so) (so_gas so) (so_refund so) (so_output so) 0, w', v0') /\
    so_step so <> STEP_RUNNING /\ (so_status so = EVMC_REVERT <-> so_step so = STEP_REVERTED) /\
    (so_status so = EVMC_SUCCESS <-> so_step so = STEP_STOPPED \/ so_step so = STEP_RETURNED).
Proof. exact (@step_execute). Qed.
(** PUSH1 5 PUSH1 1 SSTORE PUSH1 1 PUSH1 0 RETURN in calls of 1, 0, 3 and 10 steps *)
Example C38_case : forall infos, let code := [0x60; 5; 0x60; 1; 0x55; 0x60; 1; 0x60; 0; 0xF3] in
  match drive (fun v w m si => StepN (toy_setting []) v w London code m si) [1; 0; 3; 10] (vm_with infos 0 0) toy0 (toy_msg 30000 []) (start_out (toy_msg 30000 []) London) with
  | Ok (so, w, _) => so = ended STEP_RETURNED EVMC_SUCCESS London 10 24985 0 [] (repeat 0 32) [0] /\ ty_slots w = [(0x11, 1, 5)] /\
      fst (reference (toy_setting []) toy0 London code (toy_msg 30000 [])) = mkRes EVMC_SUCCESS 24985 0 [0] 0
  | _ => False
  end.
Proof. intros. vm_compute. auto. Qed.
Print Assumptions C38_stepping_is_executing.

(** ** C39 *)
Theorem C39_one_step : forall W (g : setting W), setting_ok g -> forall v w rv code m si so w' v',
  reach g v -> exec_ok (g_code_of g) code m -> step_ok code m si -> si_status si = STEP_RUNNING -> si_steps si = 1 ->
  StepN g v w rv code m si = Ok (so, w', v') -> so_step so = STEP_FAILED ->
  so_stack so = si_stack si /\ so_mem so = whole_words (si_mem si) /\ so_refund so = si_refunds si.
Proof. exact (@failing_step_stack). Qed.
(** for more steps the height reported is that of the stack passed in ... *)
Theorem C39_batch : forall W (g : setting W), setting_ok g -> forall v w rv code m si so w' v',
  reach g v -> exec_ok (g_code_of g) code m -> step_ok code m si -> si_status si = STEP_RUNNING ->
  StepN g v w rv code m si = Ok (so, w', v') -> so_step so = STEP_FAILED -> zlen (so_stack so) = zlen (si_stack si).
Proof. exact (@failing_batch_height). Qed.
(** ... which need not be the stack of the failing instruction: after three steps of PUSH1 1 POP POP POP the stack is empty
    and the fourth instruction fails, but the call for four steps reports a stack of one element *)
Theorem C39_batch_refuted : exists (code : list Z) (m : message) (si3 si4 : step_in),
  si_status si4 = STEP_RUNNING /\ step_ok code m si4 /\ si4 = counted si3 4 /\ si3 = counted si4 3 /\
  (exists v', StepN (toy_setting []) (vm_new 0 0) toy0 London code m si3 = Ok (running London 4 93 0 [] [] [], toy0, v')) /\
  (exists so v', StepN (toy_setting []) (vm_new 0 0) toy0 London code m si4 = Ok (so, toy0, v') /\ so_step so = STEP_FAILED /\ so_stack so = [7]).
Proof. exact batch_refuted. Qed.
Example C39_case : fails_with (toy_setting []) (vm_new 0 0) toy0 London [0x01] (toy_msg 100 []) (toy_in 0 [1] [2] []) EVMC_STACK_UNDERFLOW toy0.
Proof. toy_bad. Qed.
Print Assumptions C39_one_step.
Print Assumptions C39_batch.
Print Assumptions C39_batch_refuted.
