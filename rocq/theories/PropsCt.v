(** * Conformance testing targets *)
From Verif Require Import Base Host SpecEvm SpecVm Vm Client ClientFacts GoAdapter LfvmCode Lfvm SpecLfvm LfvmToy Ledger Ct SpecCt CtFacts.
From Coq Require Import Lia ZArith List Bool.
Import ListNotations.
Open Scope Z_scope.

(** ** C78: the LFVM target, asked for one step, makes one step of the EVM; asked for n steps, it makes at least half as many, and at most n *)
Theorem C78_step : forall W (rc : run_context W) tx Call keccak hash s rv, env_ok rc tx Call keccak 0 -> ct_ok s -> at_instruction s -> In (ct_revision s, rv) revisions ->
  exists s', LfvmStepN rc tx Call keccak hash s 1 = Ok (s', None) /\
    same_state s' (ct_after s (run_for (go_host rc tx) (answers Call) keccak (message_of (ToVmParameters hash s)) rv (ct_code s) (is_dest (ct_code s)) 1 (frame_of s))).
Proof. exact (@lfvm_step). Qed.
Theorem C78_steps : forall W (rc : run_context W) tx Call keccak hash s rv n, env_ok rc tx Call keccak 0 -> ct_ok s -> at_instruction s -> In (ct_revision s, rv) revisions ->
  exists s' k, LfvmStepN rc tx Call keccak hash s n = Ok (s', None) /\ (k <= Z.to_nat n)%nat /\ (Z.to_nat n <= 2 * k)%nat /\
    same_state s' (ct_after s (run_for (go_host rc tx) (answers Call) keccak (message_of (ToVmParameters hash s)) rv (ct_code s) (is_dest (ct_code s)) k (frame_of s))).
Proof. exact (@lfvm_steps). Qed.
(** single steps, any number of them *)
Theorem C78_single : forall W (rc : run_context W) tx Call keccak hash n s rv, env_ok rc tx Call keccak 0 -> ct_ok s -> at_instruction s -> In (ct_revision s, rv) revisions -> (0 < n)%nat ->
  exists s', one_by_one (LfvmStepN rc tx Call keccak hash) n s = Ok (s', None) /\
    same_state s' (ct_after s (run_for (go_host rc tx) (answers Call) keccak (message_of (ToVmParameters hash s)) rv (ct_code s) (is_dest (ct_code s)) n (frame_of s))).
Proof. exact (@lfvm_single). Qed.
(** newer revisions are reported, states that are not running are left alone *)
Theorem C78_idle : forall W (rc : run_context W) tx Call keccak hash s n,
  (5 < ct_revision s -> LfvmStepN rc tx Call keccak hash s n = Ok (s, Some ErrUnsupportedRevision)) /\
  (ct_revision s <= 5 -> ct_stat s <> CtRunning -> LfvmStepN rc tx Call keccak hash s n = Ok (s, None)).
Proof. exact (@lfvm_idle). Qed.

Definition ct_start (code : list Z) (pc : Z) (stack mem : list Z) : ct_state ledger :=
  mkCt CtRunning 5 false pc 1000 0 code stack mem 0xAB 0xCD 0 [1; 2] [9] [] ledger0.
Notation lfvm := (LfvmStepN lt_rc lt_tx lt_call lg_hash lg_hash).
Notation evm s := (run_for (go_host lt_rc lt_tx) (answers lt_call) lg_hash (message_of (ToVmParameters lg_hash s)) Cancun (ct_code s) (is_dest (ct_code s))).
Ltac ct_ok_tac := split; try reflexivity; cbn [ct_start ct_stat ct_code ct_gas ct_refund ct_stack ct_mem ct_self ct_caller ct_value ct_calldata ct_last];
  try (apply forallb_byte; vm_compute; reflexivity); try (repeat constructor; unfold is_word; lia); try (split; vm_compute; congruence); try (vm_compute; congruence).
(** MSTORE of 7 at 32 with a memory of 5 bytes, and what follows: ADD, which fails *)
Definition c78_state := ct_start [0x52; 0x01] 0 [7; 32] [1; 2; 3; 4; 5].
Example C78_case : ct_ok c78_state /\ at_instruction c78_state /\
  lfvm c78_state 1 = Ok (mkCt CtRunning 5 false 1 994 0 [0x52; 0x01] [] ([1; 2; 3; 4; 5] ++ repeat 0 58 ++ [7]) 0xAB 0xCD 0 [1; 2] [9] [] ledger0, None) /\
  (exists s, lfvm c78_state 2 = Ok (s, None) /\ ct_stat s = CtFailed) /\ exists s, one_by_one lfvm 2 c78_state = Ok (s, None) /\ ct_stat s = CtFailed.
Proof.
  split; [ct_ok_tac|]. split; [right; split; [constructor|reflexivity]|]. split; [vm_compute; reflexivity|]. split; eexists; (split; [vm_compute; reflexivity|reflexivity]).
Qed.
(** the jump over the padding in front of a JUMPDEST counts as a step: PUSH2 JUMPDEST takes three *)
Definition c78_jump := ct_start [0x61; 0; 7; 0x5B; 0] 0 [] [].
Theorem C78_steps_refuted : ct_ok c78_jump /\ at_instruction c78_jump /\
  exists s', lfvm c78_jump 2 = Ok (s', None) /\ ct_pc s' = 3 /\ ct_gas s' = 997 /\ ~ same_state s' (ct_after c78_jump (evm c78_jump 2%nat (frame_of c78_jump))) /\
    exists s'', lfvm c78_jump 3 = Ok (s'', None) /\ same_state s'' (ct_after c78_jump (evm c78_jump 2%nat (frame_of c78_jump))).
Proof.
  split; [ct_ok_tac|]. split; [right; split; [constructor|reflexivity]|]. eexists. split; [vm_compute; reflexivity|]. split; [reflexivity|]. split; [reflexivity|]. split.
  - intros [_ h]. specialize (h ltac:(discriminate)). destruct h as (_ & _ & _ & h & _). vm_compute in h. discriminate.
  - eexists. split; [vm_compute; reflexivity|]. split; [reflexivity|]. intros _. repeat (split; [reflexivity|]). split; [left; reflexivity|]. repeat split; reflexivity.
Qed.
(** states in the middle of an instruction are moved to the beginning of the code, positions two behind the code are not supported *)
Theorem C78_position_refuted : lfvm (ct_start [0x60; 0x58; 0x58] 1 [] []) 0 = Ok (ct_start [0x60; 0x58; 0x58] 0 [] [], None) /\
  lfvm (ct_start [0x60; 0x58; 0x58] 4 [] []) 1 = Undef UB_target_oob.
Proof. split; vm_compute; reflexivity. Qed.
Print Assumptions C78_step.
Print Assumptions C78_steps.
Print Assumptions C78_single.
Print Assumptions C78_idle.
Print Assumptions C78_steps_refuted.
Print Assumptions C78_position_refuted.

(** ** C79: the evmzero target makes the steps of the EVM, from every position; running states are described exactly *)
Theorem C79_steps : forall W (g : setting W) hash v s rv n, setting_ok g -> reach g v -> ct_ok s -> 0 <= ct_pc s <= zlen (ct_code s) + 32 ->
  In (ct_revision s, rv) revisions -> g_code_of g (hash (ct_code s)) = ct_code s ->
  exists s' v', EvmzeroStepN g hash v s n = Ok (s', None, v') /\ reach g v' /\
    let expected := ct_after s (run_for (g_host g) (nested g) (g_keccak g) (message_of (ToVmParameters hash s)) rv (ct_code s) (is_dest (ct_code s)) (Z.to_nat n) (frame_of s)) in
    same_state s' expected /\ (ct_stat s' = CtRunning -> s' = expected).
Proof. exact (@evmzero_steps). Qed.
Definition ct_setting (code : list Z) : setting ledger := mkSetting (go_host lt_rc lt_tx) lg_hash (fun n => Z.of_nat n) (fun _ => repeat None 1024)
  (fun w m => let '(r, w') := answers lt_call w m in Done r w') (fun _ => code).
Lemma ct_setting_ok code : setting_ok (ct_setting code).
Proof.
  destruct lt_setting_ok as [h1 h2 h3 h4]. split; try assumption. intros w m hm hg hd. pose proof (env_calls _ _ _ _ _ (lt_env (msg_depth m - 1)) w m hm hg ltac:(lia)) as X.
  cbn [ct_setting g_handler]. destruct (answers lt_call w m) as [r w']. constructor. exact X.
Qed.
Lemma ct_nested code w m : nested (ct_setting code) w m = answers lt_call w m.
Proof. unfold nested. cbn [ct_setting g_handler]. destruct (answers lt_call w m). reflexivity. Qed.
(** PUSH2 with one byte of data leads to a position two behind the code *)
Definition c79_state := ct_start [0x58; 0x61; 0x01] 1 [] [].
Example C79_case : exists v, setting_ok (ct_setting (ct_code c79_state)) /\ reach (ct_setting (ct_code c79_state)) v /\ ct_ok c79_state /\
  ct_after c79_state (evm c79_state 1%nat (frame_of c79_state)) = mkCt CtRunning 5 false 4 997 0 [0x58; 0x61; 0x01] [256] [] 0xAB 0xCD 0 [1; 2] [9] [] ledger0.
Proof.
  exists (vm_new 0 0). split; [apply ct_setting_ok|]. split; [constructor|]. split; [ct_ok_tac|]. vm_compute. reflexivity.
Qed.
Print Assumptions C79_steps.

(** ** C80: after one step, both targets are in the same state, and the comparison of states says so *)
Theorem C80_agree : forall W (rc : run_context W) tx Call keccak hash g v s rv, setting_ok g -> g_host g = go_host rc tx -> g_keccak g = keccak -> (forall w m, nested g w m = answers Call w m) ->
  reach g v -> g_code_of g (hash (ct_code s)) = ct_code s -> env_ok rc tx Call keccak 0 -> ct_ok s -> at_instruction s -> In (ct_revision s, rv) revisions ->
  exists a b v', LfvmStepN rc tx Call keccak hash s 1 = Ok (a, None) /\ EvmzeroStepN g hash v s 1 = Ok (b, None, v') /\ same_state a b /\ zlen (ct_code a) < 2 ^ 16.
Proof. exact (@targets_agree). Qed.
Theorem C80_equal : forall W (weq : W -> W -> bool) (a b : ct_state W), (forall x y, weq x y = true <-> x = y) -> zlen (ct_code a) < 2 ^ 16 ->
  StateEq weq a b = true <-> same_state a b.
Proof. exact (@state_eq). Qed.
Example C80_case : exists v, setting_ok (ct_setting (ct_code c78_state)) /\ (forall w m, nested (ct_setting (ct_code c78_state)) w m = answers lt_call w m) /\
  reach (ct_setting (ct_code c78_state)) v /\ env_ok lt_rc lt_tx lt_call lg_hash 0 /\ ct_ok c78_state /\ at_instruction c78_state /\ In (ct_revision c78_state, Cancun) revisions.
Proof.
  exists (vm_new 0 0). split; [apply ct_setting_ok|]. split; [apply ct_nested|]. split; [constructor|]. split; [apply lt_env|]. split; [exact (proj1 C78_case)|]. split; [exact (proj1 (proj2 C78_case))|]. cbn. tauto.
Qed.
(** not after two steps *)
Theorem C80_two_refuted : forall v, reach (ct_setting (ct_code c78_jump)) v ->
  exists a b v', lfvm c78_jump 2 = Ok (a, None) /\ EvmzeroStepN (ct_setting (ct_code c78_jump)) lg_hash v c78_jump 2 = Ok (b, None, v') /\ ~ same_state a b.
Proof.
  intros v hv. destruct (proj2 (proj2 C78_steps_refuted)) as (a & e & _ & _ & hn & _).
  destruct (evmzero_steps (ct_setting (ct_code c78_jump)) lg_hash v c78_jump Cancun 2 (ct_setting_ok _) hv (proj1 C78_steps_refuted)) as (b & v' & e2 & _ & hs & _); [vm_compute; split; congruence|cbn; tauto|reflexivity|].
  exists a, b, v'. split; [exact e|]. split; [exact e2|]. intros h. apply hn. apply (same_trans a b); [exact h|]. change (Z.to_nat 2) with 2%nat in hs.
  rewrite (runs_ext _ _ (answers lt_call) _ _ _ _ _ (ct_nested _)) in hs. exact hs.
Qed.
(** the LFVM target does not support every state that the evmzero target produces *)
Theorem C80_behind_refuted : forall v, reach (ct_setting (ct_code c79_state)) v ->
  exists b v', EvmzeroStepN (ct_setting (ct_code c79_state)) lg_hash v c79_state 1 = Ok (b, None, v') /\ lfvm b 1 = Undef UB_target_oob.
Proof.
  intros v hv. destruct C79_case as (_ & _ & _ & hok & hx).
  destruct (evmzero_steps (ct_setting (ct_code c79_state)) lg_hash v c79_state Cancun 1 (ct_setting_ok _) hv hok) as (b & v' & e2 & _ & hs & hs2); [vm_compute; split; congruence|cbn; tauto|reflexivity|].
  change (Z.to_nat 1) with 1%nat in hs, hs2. rewrite (runs_ext _ _ (answers lt_call) _ _ _ _ _ (ct_nested _)) in hs, hs2.
  change (g_host (ct_setting (ct_code c79_state))) with (go_host lt_rc lt_tx) in *. change (g_keccak (ct_setting (ct_code c79_state))) with lg_hash in *.
  rewrite hx in hs, hs2. exists b, v'. split; [exact e2|]. rewrite (hs2 (proj1 hs)). vm_compute. reflexivity.
Qed.
(** a slot that was changed although it counts as not accessed, and is set back now: the refunds differ (2800 and 4900) *)
Definition cold_rc : run_context ledger := mkRC ledger
  lg_nonce lg_balance (fun w a => zlen (lg_code w a)) lg_code_hash lg_code lg_storage (fun _ _ _ => 0) (fun _ n => n mod 2 ^ 256)
  lg_set_storage (fun w _ _ _ => w) lg_access (fun w a k => lg_access w (slot a k)) (lg_destruct false) lg_log.
Definition cold_setting (code : list Z) : setting ledger := mkSetting (go_host cold_rc lt_tx) lg_hash (fun n => Z.of_nat n) (fun _ => repeat None 1024)
  (fun w m => let '(r, w') := answers lt_call w m in Done r w') (fun _ => code).
Lemma cold_setting_ok code : setting_ok (cold_setting code).
Proof.
  destruct (ct_setting_ok code) as [[h1 h2 h3 h4 h5 h6 h7 h8] h9 h10 h11]. split; try assumption. split; assumption.
Qed.
Definition c80_cold : ct_state ledger := mkCt CtRunning 5 false 0 10000 0 [0x55] [7; 0] [] 0xAB 0xCD 0 [] [] [] (mkLedger [] [] [] [(slot 0xAB 0, 5)] [] [] [(slot 0xAB 0, 7)]).
Theorem C80_cold_refuted : ct_ok c80_cold /\ at_instruction c80_cold /\ setting_ok (cold_setting [0x55]) /\ forall v, reach (cold_setting [0x55]) v ->
  exists a b v', LfvmStepN cold_rc lt_tx lt_call lg_hash lg_hash c80_cold 1 = Ok (a, None) /\ EvmzeroStepN (cold_setting [0x55]) lg_hash v c80_cold 1 = Ok (b, None, v') /\
    ct_stat a = CtRunning /\ ct_stat b = CtRunning /\ ct_refund a = 2800 /\ ct_refund b = 4900.
Proof.
  assert (hok : ct_ok c80_cold).
  { split; try reflexivity; cbn [c80_cold ct_stat ct_code ct_gas ct_refund ct_stack ct_mem ct_self ct_caller ct_value ct_calldata ct_last];
    try (apply forallb_byte; vm_compute; reflexivity); try (repeat constructor; unfold is_word; lia); try (split; vm_compute; congruence); try (vm_compute; congruence). }
  split; [exact hok|]. split; [right; split; [constructor|reflexivity]|]. split; [apply cold_setting_ok|]. intros v hv.
  destruct (evmzero_steps (cold_setting [0x55]) lg_hash v c80_cold Cancun 1 (cold_setting_ok _) hv hok) as (b & v' & e2 & _ & hs & _); [vm_compute; split; congruence|cbn; tauto|reflexivity|].
  change (Z.to_nat 1) with 1%nat in hs. rewrite (runs_ext _ _ (answers lt_call)) in hs by (intros w m; unfold nested; cbn [cold_setting g_handler]; destruct (answers lt_call w m); reflexivity).
  eexists. exists b, v'. split; [vm_compute; reflexivity|]. split; [exact e2|]. split; [reflexivity|].
  destruct hs as [h1 h2]. assert (h3 : ct_stat b = CtRunning) by (rewrite h1; vm_compute; reflexivity). split; [exact h3|]. split; [reflexivity|]. specialize (h2 ltac:(rewrite h3; discriminate)). destruct h2 as (_ & _ & _ & _ & h2 & _). vm_compute in h2. exact h2.
Qed.
Print Assumptions C80_agree.
Print Assumptions C80_equal.
Print Assumptions C80_two_refuted.
Print Assumptions C80_behind_refuted.
Print Assumptions C80_cold_refuted.
