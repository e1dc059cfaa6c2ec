(** C29 - C32: calls, creations and return data. *)
From Verif Require Import Base Host SpecEvm SpecCall SpecVm Vm SpecStep Client SpecHost
  MemFacts ClientFacts OpFacts OpFacts2 OpFacts3 OpFacts5 OpFacts6 ApiFacts PropFacts PropFacts5 Toy.
From Coq Require Import Lia ZArith List Bool.
Import ListNotations.

(** ** C29 *)
(** [k] is one of CALL, CALLCODE, DELEGATECALL, STATICCALL; [nested g w1 m'] is what the host's call does with the message
    [m'] (running the code of the callee on the same VM); [account_access] is the price of looking at the account *)
Theorem C29_calls : forall W (g : setting W), setting_ok g -> forall v w rv code m si (k : call_op) rest greq a value ioff isz ooff osz c w1,
  at_op g v code m si (call_byte k) ->
  si_stack si = rest ++ call_operands k greq a value ioff isz ooff osz -> (takes_value k = false -> value = 0) ->
  let addr := a mod 2 ^ 160 in
  account_access (g_host g) rv w addr = (c, w1) ->
  let size := expand (grown (si_mem si) ioff isz) ooff osz in
  let grow := Gmem size - Gmem (zlen (si_mem si)) in
  let new := match k with OpCall => negb (value =? 0) && negb (h_account_exists (g_host g) w1 addr) | _ => false end in
  let cost := grow + c + (if value =? 0 then 0 else 9000) + (if new then 25000 else 0) in
  let stipend := if value =? 0 then 0 else 2300 in
  let avail := msg_gas m - cost in
  let fwd := Z.min greq (avail - avail / 64) in
  let m' := mkMsg
    (match k with OpCall | OpStaticCall => K_CALL | OpCallCode => K_CALLCODE | OpDelegateCall => K_DELEGATECALL end)
    (match k with OpStaticCall => EVMC_STATIC | _ => msg_flags m end)
    (msg_depth m + 1) (fwd + stipend)
    (match k with OpCall | OpStaticCall => addr | OpCallCode | OpDelegateCall => msg_recipient m end)
    (match k with OpDelegateCall => msg_sender m | _ => msg_recipient m end)
    (data_bytes (si_mem si) ioff isz)
    (match k with OpDelegateCall => msg_value m | _ => value end)
    0 addr None in
  (msg_gas m < grow -> out_of_gas g v w rv code m si) /\
  (grow <= msg_gas m -> k = OpCall -> value <> 0 -> static m = true -> fails_with g v w rv code m si EVMC_STATIC_MODE_VIOLATION w) /\
  (k <> OpCall \/ value = 0 \/ static m = false ->
     (grow <= msg_gas m < cost -> fails_with g v w rv code m si EVMC_OUT_OF_GAS w1) /\
     (cost <= msg_gas m -> value <> 0 -> h_get_balance (g_host g) w1 (msg_recipient m) < value -> exists mem',
        steps_to g v w rv code m si (running rv (si_pc si + 1) (avail + 2300) (si_refunds si) (rest ++ [0]) mem' []) w1 /\
        overwritten (si_mem si) mem' size 0 0 (fun _ => 0)) /\
     (cost <= msg_gas m -> value = 0 \/ value <= h_get_balance (g_host g) w1 (msg_recipient m) -> forall r w2, nested g w1 m' = (r, w2) -> exists mem',
        steps_to g v w rv code m si (running rv (si_pc si + 1) (avail - fwd + cr_gas_left r) (si_refunds si + cr_gas_refund r)
          (rest ++ [if status_eqb (cr_status r) EVMC_SUCCESS then 1 else 0]) mem' (cr_output r)) w2 /\
        overwritten (si_mem si) mem' size ooff (Z.min osz (zlen (cr_output r))) (data_at (cr_output r)))).
Proof. exact (@op_call). Qed.
(** CALL with value 1 to account 0x77, whose code is PUSH1 5 PUSH1 0 MSTORE8 PUSH1 1 PUSH1 0 RETURN *)
Example C29_case : steps_to (toy_setting [0x60; 5; 0x60; 0; 0x53; 0x60; 1; 0x60; 0; 0xF3]) (vm_new 0 0) toy0 London [0xF1] (toy_msg 20000 [])
  (toy_in 0 [3; 2; 0; 0; 1; 0x77; 2 ^ 255] (repeat 9 32) [])
  (running London 1 10682 0 [1] ([9; 9; 5] ++ repeat 9 29) [5]) (mkToy [] [] [0x77] [] 100 []).
Proof. toy_one. Qed.
Print Assumptions C29_calls.

(** ** C30 *)
Theorem C30_creations : forall W (g : setting W), setting_ok g -> forall v w rv code m si (two : bool) rest salt n off value,
  at_op g v code m si (if two then 0xF5 else 0xF0) -> static m = false ->
  si_stack si = rest ++ (if two then [salt; n; off; value] else [n; off; value]) -> (two = false -> salt = 0) ->
  let grow := growth_cost (si_mem si) off n in
  let cost := 32000 + grow + (if rev_ge rv Shanghai then 2 * words n else 0) + (if two then 6 * words n else 0) in
  let avail := msg_gas m - cost in
  let fwd := avail - avail / 64 in
  let m' := mkMsg (if two then K_CREATE2 else K_CREATE) 0 (msg_depth m + 1) fwd 0 (msg_recipient m) (data_bytes (si_mem si) off n) value salt 0 None in
  (msg_gas m < 32000 + grow -> out_of_gas g v w rv code m si) /\
  (32000 + grow <= msg_gas m -> rev_ge rv Shanghai = true -> 49152 < n -> fails_with g v w rv code m si EVMC_FAILURE w) /\
  (rev_ge rv Shanghai = false \/ n <= 49152 ->
     (msg_gas m < cost -> out_of_gas g v w rv code m si) /\
     (cost <= msg_gas m -> h_get_balance (g_host g) w (msg_recipient m) < value -> exists mem',
        steps_to g v w rv code m si (running rv (si_pc si + 1) avail (si_refunds si) (rest ++ [0]) mem' []) w /\
        overwritten (si_mem si) mem' (grown (si_mem si) off n) 0 0 (fun _ => 0)) /\
     (cost <= msg_gas m -> value <= h_get_balance (g_host g) w (msg_recipient m) -> forall r w', nested g w m' = (r, w') -> exists mem',
        steps_to g v w rv code m si (running rv (si_pc si + 1) (avail - fwd + cr_gas_left r) (si_refunds si + cr_gas_refund r)
          (rest ++ [if status_eqb (cr_status r) EVMC_SUCCESS then cr_create_address r else 0]) mem'
          (if status_eqb (cr_status r) EVMC_REVERT then cr_output r else [])) w' /\
        overwritten (si_mem si) mem' (grown (si_mem si) off n) 0 0 (fun _ => 0))).
Proof. exact (@op_create). Qed.
(** the toy host answers 0xCC to creations *)
Example C30_case : steps_to (toy_setting []) (vm_new 0 0) toy0 Shanghai [0xF5] (toy_msg 40000 []) (toy_in 0 [8; 77; 32; 0; 1] (repeat 9 32) [4])
  (running Shanghai 1 7992 0 [8; 0xCC] (repeat 9 32) []) toy0.
Proof. toy_one. Qed.
Example C30_too_large : fails_with (toy_setting []) (vm_new 0 0) toy0 Shanghai [0xF0] (toy_msg 100000 []) (toy_in 0 [49153; 0; 1] [] []) EVMC_FAILURE toy0.
Proof. toy_bad. Qed.
Print Assumptions C30_creations.

(** ** C31 *)
(** the result does not depend on what the host would do with a nested message *)
Theorem C31_unfunded_call : forall W (g : setting W), setting_ok g -> forall v w rv code m si (k : call_op) rest greq a value ioff isz ooff osz c w1,
  at_op g v code m si (call_byte k) -> takes_value k = true -> (k = OpCall -> static m = false) ->
  si_stack si = rest ++ [osz; ooff; isz; ioff; value; a; greq] ->
  account_access (g_host g) rv w (a mod 2 ^ 160) = (c, w1) -> h_get_balance (g_host g) w1 (msg_recipient m) < value -> value <> 0 ->
  let size := expand (grown (si_mem si) ioff isz) ooff osz in
  let new := match k with OpCall => negb (h_account_exists (g_host g) w1 (a mod 2 ^ 160)) | _ => false end in
  let cost := Gmem size - Gmem (zlen (si_mem si)) + c + 9000 + (if new then 25000 else 0) in
  cost <= msg_gas m ->
  exists mem', steps_to g v w rv code m si (running rv (si_pc si + 1) (msg_gas m - cost + 2300) (si_refunds si) (rest ++ [0]) mem' []) w1 /\
    overwritten (si_mem si) mem' size 0 0 (fun _ => 0).
Proof. exact (@unfunded_call). Qed.
Theorem C31_unfunded_creation : forall W (g : setting W), setting_ok g -> forall v w rv code m si (two : bool) rest salt n off value,
  at_op g v code m si (if two then 0xF5 else 0xF0) -> static m = false ->
  si_stack si = rest ++ (if two then [salt; n; off; value] else [n; off; value]) ->
  rev_ge rv Shanghai = false \/ n <= 49152 -> h_get_balance (g_host g) w (msg_recipient m) < value ->
  let cost := 32000 + growth_cost (si_mem si) off n + (if rev_ge rv Shanghai then 2 * words n else 0) + (if two then 6 * words n else 0) in
  cost <= msg_gas m ->
  exists mem', steps_to g v w rv code m si (running rv (si_pc si + 1) (msg_gas m - cost) (si_refunds si) (rest ++ [0]) mem' []) w /\
    overwritten (si_mem si) mem' (grown (si_mem si) off n) 0 0 (fun _ => 0).
Proof. exact (@unfunded_creation). Qed.
(** 101 is more than the toy's accounts have *)
Example C31_case : steps_to (toy_setting [0xFE]) (vm_new 0 0) toy0 London [0xF1] (toy_msg 20000 []) (toy_in 0 [0; 0; 0; 0; 101; 0x77; 50] [] [4])
  (running London 1 10700 0 [0] [] []) (mkToy [] [] [0x77] [] 100 []).
Proof. toy_one. Qed.
Example C31_create : steps_to (toy_setting [0xFE]) (vm_new 0 0) toy0 London [0xF0] (toy_msg 40000 []) (toy_in 0 [0; 0; 101] [] [4])
  (running London 1 8000 0 [0] [] []) toy0.
Proof. toy_one. Qed.
Print Assumptions C31_unfunded_call.
Print Assumptions C31_unfunded_creation.

(** ** C32 *)
(** after calls and creations: the last argument of [running] in C29 and C30 is the new return data.  Other instructions
    ([asking] lists the calls and creations): *)
Theorem C32_kept : forall W (g : setting W), setting_ok g -> forall v w rv code m si op so w',
  at_op g v code m si op -> steps_to g v w rv code m si so w' -> ~ In op asking -> so_step so = STEP_RUNNING -> so_last so = si_ret si.
Proof. exact (@return_data_kept). Qed.
(** RETURNDATASIZE (and PC, MSIZE, GAS); RETURNDATACOPY is C19 *)
Theorem C32_size : forall W (g : setting W), setting_ok g -> forall v w rv code m si op x,
  In (op, x) [(0x58, si_pc si); (0x59, zlen (whole_words (si_mem si))); (0x5A, msg_gas m - 2); (0x3D, zlen (si_ret si))] ->
  at_op g v code m si op -> zlen (si_stack si) < 1024 -> 2 <= msg_gas m ->
  steps_to g v w rv code m si (running rv (si_pc si + 1) (msg_gas m - 2) (si_refunds si) (si_stack si ++ [x]) (whole_words (si_mem si)) (si_ret si)) w.
Proof. exact (@op_state). Qed.
Theorem C32_return : forall W (g : setting W), setting_ok g -> forall v w rv code m si op st sc rest n off,
  In (op, st, sc) [(0xF3, STEP_RETURNED, EVMC_SUCCESS); (0xFD, STEP_REVERTED, EVMC_REVERT)] ->
  at_op g v code m si op -> si_stack si = rest ++ [n; off] ->
  let cost := growth_cost (si_mem si) off n in
  (cost <= msg_gas m -> exists mem',
     steps_to g v w rv code m si (ended st sc rv (si_pc si + 1) (msg_gas m - cost) (si_refunds si) rest mem' (data_bytes (si_mem si) off n)) w /\
     overwritten (si_mem si) mem' (grown (si_mem si) off n) 0 0 (fun _ => 0)) /\
  (msg_gas m < cost -> out_of_gas g v w rv code m si).
Proof. exact (@op_return). Qed.
(** a non-empty output of Execute is the range requested by the RETURN or REVERT instruction that ended it *)
Theorem C32_output : forall W (g : setting W), setting_ok g -> forall v w rv code m r w' v',
  reach g v -> exec_ok (g_code_of g) code m -> Execute g v w rv code m = Ok (r, w', v') -> cr_output r <> [] ->
  exists n so w1 rest len off, observed g v w rv code m n so w1 /\ so_step so = STEP_RUNNING /\
    In (code_at code (so_pc so), cr_status r) [(0xF3, EVMC_SUCCESS); (0xFD, EVMC_REVERT)] /\
    so_stack so = rest ++ [len; off] /\ cr_output r = data_bytes (so_mem so) off len.
Proof. exact (@output_exact). Qed.
(** PUSH1 2 PUSH1 31 REVERT with empty memory: two zero bytes *)
Example C32_case : exists v', Execute (toy_setting []) (vm_new 0 0) toy0 London [0x60; 2; 0x60; 31; 0xFD] (toy_msg 100 []) =
  Ok (mkRes EVMC_REVERT 88 0 [0; 0] 0, toy0, v') /\ reach (toy_setting []) v'.
Proof. toy_run. Qed.
Example C32_size_case : steps_to (toy_setting []) (vm_new 0 0) toy0 London [0x3D] (toy_msg 10 []) (toy_in 0 [5] [] [7; 8; 9]) (running London 1 8 0 [5; 3] [] [7; 8; 9]) toy0. Proof. toy_one. Qed.
Print Assumptions C32_kept.
Print Assumptions C32_size.
Print Assumptions C32_return.
Print Assumptions C32_output.
