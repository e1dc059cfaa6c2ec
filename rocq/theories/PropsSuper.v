(** C77: the super instructions of the Go interpreter. *)
From Coq Require Import Lia ZArith List Bool.
From Verif Require Import Base Host SpecEvm SpecVm Vm Client GoAdapter LfvmCode Lfvm SpecLfvm LfvmExec LfvmRun SuperFacts LfvmToy Ledger Toy PropsLfvm.
Import ListNotations.
Open Scope Z_scope.

(** ** C77: with super instructions, Run reports what the EVM does, if the code returns from its functions to offsets below 2^31 *)
Theorem C77_super : forall W (rc : run_context W) tx Call keccak p rv w,
  env_ok rc tx Call keccak (p_depth p) -> run_ok p -> In (p_revision p, rv) revisions ->
  returns_in_range (go_host rc tx) keccak (answers Call) w rv (p_code p) (message_of p) ->
  let e := evaluate (go_host rc tx) keccak (answers Call) w rv (p_code p) (message_of p) in
  exists w', LfvmRun rc tx Call keccak true w p = Ok (inl (expected (fst e)), w') /\ (unfailed (fst e) -> w' = snd e).
Proof. exact (@super_run). Qed.
(** codes that do not have the bytes SWAP2 SWAP1 POP JUMP in a row *)
Theorem C77_without : forall W (rc : run_context W) tx Call keccak p rv w,
  env_ok rc tx Call keccak (p_depth p) -> run_ok p -> In (p_revision p, rv) revisions ->
  (forall before after, p_code p <> before ++ [0x91; 0x90; 0x50; 0x56] ++ after) ->
  let e := evaluate (go_host rc tx) keccak (answers Call) w rv (p_code p) (message_of p) in
  exists w', LfvmRun rc tx Call keccak true w p = Ok (inl (expected (fst e)), w') /\ (unfailed (fst e) -> w' = snd e).
Proof. exact (@super_without). Qed.
(** the option has no effect on the results of such runs *)
Theorem C77_option : forall W (rc : run_context W) tx Call keccak p rv w,
  env_ok rc tx Call keccak (p_depth p) -> run_ok p -> In (p_revision p, rv) revisions ->
  returns_in_range (go_host rc tx) keccak (answers Call) w rv (p_code p) (message_of p) ->
  exists r w1 w2, LfvmRun rc tx Call keccak true w p = Ok (inl r, w1) /\ LfvmRun rc tx Call keccak false w p = Ok (inl r, w2) /\ (go_success r = true -> w1 = w2).
Proof. exact (@super_option). Qed.

(** call a function that adds 7 to its argument and returns to its caller, which returns the sum *)
Definition c77_code : list Z :=
  [0x60; 11; 0x60; 0x63; 0x60; 5; 0x61; 0; 20; 0x56; 0xFE;  0x5B; 0x60; 0; 0x52; 0x60; 32; 0x60; 0; 0xF3;
   0x5B; 0x60; 7; 0x01; 0x91; 0x90; 0x50; 0x56].
Example C77_case : forall d, env_ok lt_rc lt_tx lt_call lg_hash d /\ run_ok (c70_params 5 100000 c77_code) /\
  returns_in_range (go_host lt_rc lt_tx) lg_hash (answers lt_call) ledger0 Cancun c77_code (message_of (c70_params 5 100000 c77_code)) /\
  (exists lc, convert true c77_code = Ok lc /\ In (L_PUSH1_PUSH1, 0xB63) lc /\ In (L_PUSH2_JUMP, 20) lc /\ In (L_PUSH1_ADD, 7) lc /\ In (L_SWAP2_SWAP1_POP_JUMP, 0) lc) /\
  exists w', LfvmRun lt_rc lt_tx lt_call lg_hash true ledger0 (c70_params 5 100000 c77_code) = Ok (inl (mkGo true (repeat 0 31 ++ [12]) 99941 0), w').
Proof.
  intros d. split; [apply lt_env|]. split; [run_ok_tac|]. split; [apply (returns_check _ _ _ _ _ _ _ 20); vm_compute; [reflexivity|exact Logic.I]|].
  split; [eexists; split; [vm_compute; reflexivity|cbn; tauto]|eexists; vm_compute; reflexivity].
Qed.
(** a code without the sequence: (3 < 5) + 1, with PUSH1 PUSH1, DUP2 LT, SWAP1 POP and DUP2 MSTORE *)
Definition c77_plain : list Z := [0x60; 0; 0x60; 3; 0x60; 5; 0x81; 0x10; 0x90; 0x50; 0x60; 1; 0x01; 0x81; 0x52; 0x60; 32; 0x60; 0; 0xF3].
Example C77_plain : run_ok (c70_params 5 100000 c77_plain) /\ (forall before after, c77_plain <> before ++ [0x91; 0x90; 0x50; 0x56] ++ after) /\
  (exists lc, convert true c77_plain = Ok lc /\ In (L_DUP2_LT, 0) lc /\ In (L_SWAP1_POP, 0) lc /\ In (L_DUP2_MSTORE, 0) lc) /\
  exists w', LfvmRun lt_rc lt_tx lt_call lg_hash true ledger0 (c70_params 5 100000 c77_plain) = Ok (inl (mkGo true (repeat 0 31 ++ [2]) 99959 0), w').
Proof.
  split; [run_ok_tac|]. split; [|split; [eexists; split; [vm_compute; reflexivity|cbn; tauto]|eexists; vm_compute; reflexivity]].
  intros before after h. assert (hin : In 0x91 c77_plain) by (rewrite h; apply in_or_app; right; left; reflexivity). cbn in hin. repeat (destruct hin as [hin|hin]; [discriminate hin|]). exact hin.
Qed.

(** without the condition: a return to 2^32 + 14 goes to 14, where the EVM fails *)
Definition c77_far : list Z := [0x64; 1; 0; 0; 0; 14; 0x60; 0; 0x60; 0; 0x91; 0x90; 0x50; 0x56; 0x5B; 0].
Theorem C77_far_refuted : run_ok (c70_params 5 100 c77_far) /\
  expected (fst (evaluate (go_host lt_rc lt_tx) lg_hash (answers lt_call) ledger0 Cancun c77_far (message_of (c70_params 5 100 c77_far)))) = mkGo false [] 0 0 /\
  (exists w', LfvmRun lt_rc lt_tx lt_call lg_hash true ledger0 (c70_params 5 100 c77_far) = Ok (inl (mkGo true [] 74 0), w')) /\
  exists w', LfvmRun lt_rc lt_tx lt_call lg_hash false ledger0 (c70_params 5 100 c77_far) = Ok (inl (mkGo false [] 0 0), w').
Proof. split; [run_ok_tac|]. split; [vm_compute; reflexivity|]. split; eexists; vm_compute; reflexivity. Qed.
(** and a return to 2^31 indexes the code with a negative number, which is a panic *)
Definition c77_crash : list Z := [0x63; 0x80; 0; 0; 0; 0x60; 0; 0x60; 0; 0x91; 0x90; 0x50; 0x56].
Theorem C77_crash_refuted : run_ok (c70_params 5 100 c77_crash) /\
  LfvmRun lt_rc lt_tx lt_call lg_hash true ledger0 (c70_params 5 100 c77_crash) = Undef UB_code_oob /\
  exists w', LfvmRun lt_rc lt_tx lt_call lg_hash false ledger0 (c70_params 5 100 c77_crash) = Ok (inl (mkGo false [] 0 0), w').
Proof. split; [run_ok_tac|]. split; [vm_compute; reflexivity|]. eexists; vm_compute; reflexivity. Qed.
Print Assumptions C77_super.
Print Assumptions C77_without.
Print Assumptions C77_option.
Print Assumptions C77_far_refuted.
Print Assumptions C77_crash_refuted.
