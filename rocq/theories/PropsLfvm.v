(** C70-C73: the Go interpreter (LFVM). *)
From Coq Require Import Lia ZArith List Bool.
From Verif Require Import Base Host SpecEvm SpecVm Vm Client GoAdapter LfvmCode Lfvm SpecLfvm LfvmExec LfvmRun LfvmToy Ledger Toy.
Import ListNotations.
Open Scope Z_scope.

(** ** C70: Run reports what the EVM does (for codes of up to 65536 bytes) *)
Theorem C70_run : forall W (rc : run_context W) tx Call keccak p rv w,
  env_ok rc tx Call keccak (p_depth p) -> run_ok p -> In (p_revision p, rv) revisions ->
  let e := evaluate (go_host rc tx) keccak (answers Call) w rv (p_code p) (message_of p) in
  exists w', LfvmRun rc tx Call keccak false w p = Ok (inl (expected (fst e)), w') /\ (unfailed (fst e) -> w' = snd e).
Proof. exact (@lfvm_run). Qed.
(** store 5 in slot 0, jump over an invalid instruction, call account 0xAA with 10 bytes of input, return one word of memory *)
Definition c70_code : list Z :=
  [0x60; 5; 0x60; 0; 0x55; 0x60; 9; 0x56; 0xFE; 0x5B; 0x60; 3; 0x60; 1; 0x60; 10; 0x60; 0; 0x60; 0; 0x60; 0xAA; 0x61; 16; 0; 0xF1; 0x60; 32; 0x60; 0; 0xF3].
Definition c70_params (r gas : Z) (code : list Z) : parameters := mkParams r false 3 gas 0xAB 0xCD [1; 2; 3] 0 None code.
Ltac run_ok_tac := split; [split; cbn [message_of c70_params msg_flags msg_depth msg_gas msg_recipient msg_sender msg_input msg_value p_static p_depth p_gas p_recipient p_sender p_input p_value];
    try lia; try (unfold is_addr, is_word; lia); try bytes; try reflexivity
  |cbn; lia|cbn; lia|apply forallb_byte; vm_compute; reflexivity|apply Z.leb_le; vm_compute; reflexivity].
Example C70_case : forall d, env_ok lt_rc lt_tx lt_call lg_hash d /\ run_ok (c70_params 5 100000 c70_code) /\
  exists w', LfvmRun lt_rc lt_tx lt_call lg_hash false ledger0 (c70_params 5 100000 c70_code) = Ok (inl (mkGo true ([0; 1; 2; 3] ++ repeat 0 28) 73204 0), w') /\
  lg_storage w' 0xAB 0 = 5 /\ lg_storage w' 0xAA 9 = 10.
Proof. intros d. split; [apply lt_env|]. split; [run_ok_tac|]. eexists. split; [vm_compute; reflexivity|split; vm_compute; reflexivity]. Qed.
(** a run that clears a slot and reverts gets no refund, a run without enough gas fails *)
Example C70_cases :
  let w := mkLedger [] [] [] [(slot 0xAB 0, 7)] [] [] [(slot 0xAB 0, 7)] in
  (exists w', LfvmRun lt_rc lt_tx lt_call lg_hash false w (c70_params 2 50000 [0x60; 0; 0x60; 0; 0x55; 0x60; 1; 0x60; 31; 0xFD]) = Ok (inl (mkGo false [0] 44985 0), w')) /\
  (exists w', LfvmRun lt_rc lt_tx lt_call lg_hash false w (c70_params 2 50000 [0x60; 0; 0x60; 0; 0x55]) = Ok (inl (mkGo true [] 44994 4800), w')) /\
  exists w', LfvmRun lt_rc lt_tx lt_call lg_hash false w (c70_params 2 5000 [0x60; 0; 0x60; 0; 0x55]) = Ok (inl (mkGo false [] 0 0), w').
Proof. split; [|split]; eexists; vm_compute; reflexivity. Qed.
Print Assumptions C70_run.

(** ** C71: LFVM and evmzero agree; the refund that evmzero reports for runs that did not succeed is dropped *)
Theorem C71_agree : forall W (rc : run_context W) tx Call keccak g v p rv w, setting_ok g ->
  g_host g = go_host rc tx -> g_keccak g = keccak -> (forall w m, nested g w m = answers Call w m) ->
  reach g v -> exec_ok (g_code_of g) (p_code p) (message_of p) -> env_ok rc tx Call keccak (p_depth p) -> run_ok p -> In (p_revision p, rv) revisions ->
  exists o w1 v' r w2, Run g v w p = Ok (o, w1, v') /\ LfvmRun rc tx Call keccak false w p = Ok (inl r, w2) /\
    match o with
    | inl r1 => r = (if go_success r1 then r1 else mkGo false (go_output r1) (go_gas_left r1) 0) /\ (go_success r1 = true -> w2 = w1)
    | inr e => e = ErrUnexpected EVMC_FAILURE /\ r = mkGo false [] 0 0
    end.
Proof. exact (@lfvm_evmzero). Qed.
Example C71_case : exists v, setting_ok lt_setting /\ g_host lt_setting = go_host lt_rc lt_tx /\ (forall w m, nested lt_setting w m = answers lt_call w m) /\
  reach lt_setting v /\ exec_ok (g_code_of lt_setting) c70_code (message_of (c70_params 5 100000 c70_code)).
Proof.
  exists (vm_new 0 0). split; [exact lt_setting_ok|]. split; [reflexivity|]. split; [exact lt_nested|]. split; [constructor|].
  assert (h : run_ok (c70_params 5 100000 c70_code)) by run_ok_tac. destruct h as [h1 h2 h3 h4 h5]. refine (mkExecOk _ _ _ h1 h3 h4 _ _); [cbv; discriminate|discriminate].
Qed.
Print Assumptions C71_agree.

(** ** C72: conversion always succeeds, and keeps the jump destinations of the code where they are, with and without super instructions *)
Theorem C72_conversion : forall super code, Forall is_byte code -> zlen code <= 65536 ->
  exists lc, convert super code = Ok lc /\ forall d, 0 <= d -> (exists a, znth lc d = Some (0x5B, a)) <-> jumpdest code d.
Proof. exact conversion_ok. Qed.
(** PUSH2 with a destination in its data, a destination behind it *)
Example C72_case : convert false [0x61; 0x5B; 0x5B; 0x58; 0x5B; 0x62; 1] = Ok [(0x61, 0x5B5B); (0x58, 3); (L_JUMP_TO, 4); (L_NOOP, 0); (0x5B, 0); (0x62, 0x100); (L_DATA, 0)] /\
  convert true [0x60; 7; 0x60; 8; 0x01; 0x5B; 0x90; 0x50] = Ok [(L_PUSH1_PUSH1, 0x708); (0x01, 0); (L_JUMP_TO, 5); (L_NOOP, 0); (L_NOOP, 0); (0x5B, 0); (L_SWAP1_POP, 0)].
Proof. split; vm_compute; reflexivity. Qed.
(** beyond: 65538 bytes, in which PUSH3 65533 JUMP leads to JUMPDEST PUSH1 JUMPDEST; the last destination's address, 65536, does not fit *)
Definition c72_code : list Z := [0x62; 0; 0xFF; 0xFD; 0x56] ++ concat (repeat (0x7F :: repeat 0 32) (Z.to_nat 1985)) ++ (0x75 :: repeat 0 22) ++ [0x5B; 0x60; 1; 0x5B; 0].
Theorem C72_large_refuted : zlen c72_code = 65538 /\ Forall is_byte c72_code /\
  expected (fst (evaluate (go_host lt_rc lt_tx) lg_hash (answers lt_call) ledger0 Cancun c72_code (message_of (c70_params 5 40 c72_code)))) = mkGo true [] 24 0 /\
  exists w', LfvmRun lt_rc lt_tx lt_call lg_hash false ledger0 (c70_params 5 40 c72_code) = Ok (inl (mkGo false [] 0 0), w').
Proof. split; [vm_compute; reflexivity|]. split; [apply forallb_byte; vm_compute; reflexivity|]. split; [vm_compute; reflexivity|]. eexists. vm_compute. reflexivity. Qed.
Print Assumptions C72_conversion.
Print Assumptions C72_large_refuted.

(** ** C73: the tables of stack limits and of fees are those of the EVM; the fee of a first access under Istanbul is part of the table *)
Theorem C73_limits : forall b ins h, is_byte b -> instruction b = Some ins -> 0 <= h <= 1024 ->
  checkStackLimits h b = negb (h <? in_args ins) && negb (1024 <? h - in_args ins + in_results ins).
Proof. exact limits_ok. Qed.
Theorem C73_fees : forall r rv b ins, In (r, rv) revisions -> is_byte b -> instruction b = Some ins ->
  staticGasPrice r b = in_fee ins + (if r =? 0 then if b =? 0x54 then 800 else if existsb (Z.eqb b) [0x31; 0x3B; 0x3C; 0x3F; 0xF1; 0xF2; 0xF4; 0xFA] then 700 else 0 else 0).
Proof. exact fees_ok. Qed.
Example C73_case : checkStackLimits 1024 0x80 = false /\ checkStackLimits 1023 0x80 = true /\ checkStackLimits 0 0x80 = false /\ checkStackLimits 17 0x9F = true /\ checkStackLimits 16 0x9F = false /\
  staticGasPrice 0 0x54 = 800 /\ staticGasPrice 5 0x54 = 0 /\ staticGasPrice 3 0xA2 = 1125.
Proof. repeat split; vm_compute; reflexivity. Qed.
Print Assumptions C73_limits.
Print Assumptions C73_fees.
