(** C01 - C06: complete executions. *)
From Verif Require Import Base Host SpecEvm SpecCall SpecVm Vm SpecStep Client SpecHost SpecTop
  MemFacts ClientFacts ApiFacts StaticFacts RunFacts RefFacts PropFacts Toy.
From Coq Require Import Lia ZArith List Bool.
Import ListNotations.

(** 5 + 3, returned as a word: PUSH1 5 PUSH1 3 ADD PUSH1 0 MSTORE PUSH1 32 PUSH1 0 RETURN *)
Definition adder : list Z := [0x60; 5; 0x60; 3; 0x01; 0x60; 0; 0x52; 0x60; 32; 0x60; 0; 0xF3].
(** writes 9 to slot 2, logs, then calls account 0x77 with 5000 gas and value 1:
    PUSH1 9 PUSH1 2 SSTORE  PUSH1 0 PUSH1 0 LOG0  PUSH1 0 (4x) PUSH1 1 PUSH1 0x77 PUSH2 5000 CALL  STOP *)
Definition caller : list Z := [0x60; 9; 0x60; 2; 0x55; 0x60; 0; 0x60; 0; 0xA0;
  0x60; 0; 0x60; 0; 0x60; 0; 0x60; 0; 0x60; 1; 0x60; 0x77; 0x61; 0x13; 0x88; 0xF1; 0x00].

(** ** C01 *)
Theorem C01_execute_is_evm : forall W (g : setting W), setting_ok g ->
  (exists ref, evm g ref) /\
  forall ref, evm g ref -> forall v w rv code m, reach g v -> exec_ok (g_code_of g) code m ->
    exists v', Execute g v w rv code m = Ok (fst (ref w rv code m), snd (ref w rv code m), v') /\ reach g v'.
Proof. exact (@execute_is_evm). Qed.

Example C01_case : exists v', Execute (toy_setting adder) (vm_new 0 0) toy0 London adder (toy_msg 100 []) =
  Ok (mkRes EVMC_SUCCESS 76 0 (zeros 31 ++ [8]) 0, toy0, v') /\ reach (toy_setting adder) v'.
Proof. toy_run. Qed.
Example C01_calls : exists v', Execute (toy_setting [0x00]) (vm_new 0 0) toy0 London caller (toy_msg 100000 []) =
  Ok (mkRes EVMC_SUCCESS 68192 0 [] 0, mkToy [(0x11, 2, 9)] [(0x11, 2)] [0x77] [(0x11, [], [])] 100 [], v') /\ reach (toy_setting [0x00]) v'.
Proof. toy_run. Qed.
Print Assumptions C01_execute_is_evm.

(** ** C02 *)
(** [Undef] and [NoFuel] are the other outcomes of the model *)
Theorem C02_no_undefined_behaviour : forall W (g : setting W), setting_ok g -> forall v w rv code m, reach g v -> exec_ok (g_code_of g) code m ->
  (exists r w' v', Execute g v w rv code m = Ok (r, w', v')) /\
  (forall si, step_ok code m si -> exists so w' v', StepN g v w rv code m si = Ok (so, w', v')).
Proof. exact (@always_defined). Qed.
Print Assumptions C02_no_undefined_behaviour.

(** ** C03 *)
(** Execute returns; after more instructions than units of gas no run is going on; every number of instructions can be
    asked for *)
Theorem C03_termination : forall W (g : setting W), setting_ok g -> forall v w rv code m, reach g v -> exec_ok (g_code_of g) code m ->
  (exists r w' v', Execute g v w rv code m = Ok (r, w', v')) /\
  (forall n, exists so w', observed g v w rv code m n so w') /\
  (forall n so w', observed g v w rv code m n so w' -> Z.max 0 (msg_gas m) < Z.of_nat n -> so_step so <> STEP_RUNNING) /\
  (forall n so w', observed g v w rv code m n so w' -> so_step so = STEP_RUNNING -> so_gas so <= msg_gas m - Z.of_nat n).
Proof. exact (@terminates). Qed.
(** two instructions with three units of gas: JUMPDEST JUMPDEST *)
Example C03_case : observed (toy_setting [0x00]) (vm_new 0 0) toy0 London [0x5B; 0x5B; 0x5B; 0x5B] (toy_msg 3 []) 2
  (mkOut STEP_RUNNING EVMC_FAILURE London 2 1 0 [] [] [] []) toy0.
Proof. toy_observe. Qed.
Print Assumptions C03_termination.

(** ** C04 *)
Theorem C04_gas_contract : forall W (g : setting W), setting_ok g -> forall v w rv code m, reach g v -> exec_ok (g_code_of g) code m ->
  (forall r w' v', Execute g v w rv code m = Ok (r, w', v') ->
     0 <= cr_gas_left r <= Z.max 0 (msg_gas m) /\
     (cr_status r <> EVMC_SUCCESS -> cr_status r <> EVMC_REVERT -> cr_gas_left r = 0)) /\
  (forall si so w' v', step_ok code m si -> si_status si = STEP_RUNNING -> 0 <= msg_gas m -> StepN g v w rv code m si = Ok (so, w', v') ->
     0 <= so_gas so <= msg_gas m /\ (so_step so = STEP_FAILED -> so_gas so = 0)).
Proof. exact (@gas_contract). Qed.
Example C04_failure : exists v', Execute (toy_setting adder) (vm_new 0 0) toy0 London adder (toy_msg 20 []) =
  Ok (mkRes EVMC_OUT_OF_GAS 0 0 [] 0, toy0, v') /\ reach (toy_setting adder) v'.
Proof. toy_run. Qed.
Print Assumptions C04_gas_contract.

(** ** C05 *)
Theorem C05_refund_bounded : forall W (g : setting W), setting_ok g -> forall v w rv code m, reach g v -> exec_ok (g_code_of g) code m ->
  (forall r w' v', Execute g v w rv code m = Ok (r, w', v') ->
     Z.abs (cr_gas_refund r) <= 199 * (Z.max 0 (msg_gas m) - cr_gas_left r) /\ Z.abs (cr_gas_refund r) < 2 ^ 63) /\
  (forall si so w' v', step_ok code m si -> si_status si = STEP_RUNNING -> 0 <= msg_gas m -> StepN g v w rv code m si = Ok (so, w', v') ->
     Z.abs (so_refund so - si_refunds si) <= 199 * (msg_gas m - so_gas so)).
Proof. exact (@refund_bounded). Qed.
(** clearing slot 1 (committed value 7) earns 4800: PUSH1 0 PUSH1 1 SSTORE *)
Example C05_case : exists v', Execute (toy_setting [0x00]) (vm_new 0 0) toy0 London [0x60; 0; 0x60; 1; 0x55] (toy_msg 100000 []) =
  Ok (mkRes EVMC_SUCCESS 94994 4800 [] 0, mkToy [(0x11, 1, 0)] [(0x11, 1)] [] [] 100 [], v') /\ reach (toy_setting [0x00]) v'.
Proof. toy_run. Qed.
Print Assumptions C05_refund_bounded.

(** ** C06 *)
(** Whatever property [P] of the host's state survives looking at accounts and slots and is preserved by how the host
    deals with harmless messages (static, no creation, no value): a static message preserves it.  In particular no
    storage write, transient write, log, self-destruction, creation or value transfer is requested: none of them is
    assumed to preserve [P].  The second statement only assumes that the host, when it deals with a harmless message, has
    static messages executed. *)
Theorem C06_static_safe : forall W (g : setting W), setting_ok g -> forall (P : W -> Prop) v w rv code m,
  reach g v -> exec_ok (g_code_of g) code m -> Z.odd (msg_flags m) = true -> survives_access (g_host g) P -> P w ->
  ((forall w m', P w -> harmless m' -> P (snd (nested g w m'))) ->
     (forall r w' v', Execute g v w rv code m = Ok (r, w', v') -> P w') /\
     (forall si so w' v', step_ok code m si -> StepN g v w rv code m si = Ok (so, w', v') -> P w')) /\
  ((forall w m', P w -> harmless m' -> preserves P (g_handler g w m')) ->
     forall r w' v', Execute g v w rv code m = Ok (r, w', v') -> P w').
Proof. exact (@static_safe). Qed.
(** on the toy host, whose accounts all run the code [c]: a static execution of any code leaves slots, logs, balance and the
    destructed accounts as they were, whatever it calls.  (The same code, not run statically, changes them: C01_calls.) *)
Definition untouched (w : toy) : Prop := ty_slots w = [] /\ ty_logs w = [] /\ ty_balance w = 100 /\ ty_dead w = [].
Definition static_msg (gas : Z) : message := mkMsg K_CALL 1 0 gas 0x11 0x22 [] 0 0 0x11 None.
Example C06_case : forall c rv code gas r w' v', Forall is_byte c -> zlen c <= 2 ^ 32 -> Forall is_byte code -> zlen code <= 2 ^ 32 -> - 2 ^ 63 <= gas < 2 ^ 54 ->
  Execute (toy_setting c) (vm_new 0 0) toy0 rv code (static_msg gas) = Ok (r, w', v') -> untouched w'.
Proof.
  intros c rv code gas r w' v' Hc Hcl Hb Hl Hg E.
  refine (proj2 (C06_static_safe toy (toy_setting c) (toy_ok c Hc Hcl) untouched (vm_new 0 0) toy0 rv code (static_msg gas) (reach_new _ 0%nat 0%nat) _ eq_refl _ _) _ r w' v' E).
  - split; cbn; try assumption; try lia; [|discriminate]. split; cbn; try assumption; try lia; try constructor; unfold is_addr, is_word; lia.
  - split; intros w ** ; exact H.
  - repeat split.
  - intros w m' Hw [H1 [H2 [H3 _]]]. cbn [toy_setting g_handler]. unfold toy_handler. destruct (1024 <? msg_depth m'); [apply preserves_done, Hw|].
    assert (K : forall kd, preserves untouched (Enter w London c (mkMsg kd (msg_flags m') (msg_depth m') (msg_gas m') (msg_recipient m') (msg_sender m') (msg_input m') (msg_value m') 0 0 None)
      (fun r w' => Done r (match cr_status r with EVMC_SUCCESS => w' | _ => w end)))).
    { intros kd. apply preserves_enter; [exact Hw|exact H1|]. intros r0 w0 H0. apply preserves_done. destruct (cr_status r0); assumption. }
    destruct (msg_kind m'); try apply K; congruence.
Qed.
Example C06_not_static : exists v', Execute (toy_setting [0x00]) (vm_new 0 0) toy0 London caller (toy_msg 100000 []) =
  Ok (mkRes EVMC_SUCCESS 68192 0 [] 0, mkToy [(0x11, 2, 9)] [(0x11, 2)] [0x77] [(0x11, [], [])] 100 [], v') /\ ~ untouched (mkToy [(0x11, 2, 9)] [(0x11, 2)] [0x77] [(0x11, [], [])] 100 []).
Proof. destruct C01_calls as [v' [E _]]. exists v'. split; [exact E|]. intros [U _]. discriminate U. Qed.
Print Assumptions C06_static_safe.
