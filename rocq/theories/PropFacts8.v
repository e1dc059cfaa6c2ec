(** Stepping: C36 - C39. *)
From Verif Require Import Base Host SpecEvm SpecVm Vm VmFacts SpecStep StepFacts Client SpecHost SpecTop MemFacts ClientFacts ApiFacts RunFacts RefFacts Toy PropFacts.
From Coq Require Import Lia ZArith List Bool.
Import ListNotations.

Section Step.
Context {W : Type}.
Variable g : setting W.
Hypothesis Hg : setting_ok g.
Notation eok := (exec_ok (g_code_of g)).

Lemma step_identity v w rv code m si : reach g v -> eok code m -> step_ok code m si -> si_status si <> STEP_RUNNING \/ si_steps si <= 0 ->
  exists so, steps_to g v w rv code m si so w /\ so_pc so = si_pc si /\ so_stack so = si_stack si /\ so_refund so = si_refunds si /\
    so_mem so = whole_words (si_mem si) /\
    (si_status si = STEP_RUNNING -> so = running rv (si_pc si) (msg_gas m) (si_refunds si) (si_stack si) (whole_words (si_mem si)) (si_ret si)) /\
    (si_status si = STEP_RETURNED -> so = ended STEP_RETURNED EVMC_SUCCESS rv (si_pc si) (msg_gas m) (si_refunds si) (si_stack si) (whole_words (si_mem si)) (si_ret si)) /\
    (si_status si = STEP_REVERTED -> so = ended STEP_REVERTED EVMC_REVERT rv (si_pc si) (msg_gas m) (si_refunds si) (si_stack si) (whole_words (si_mem si)) (si_ret si)) /\
    (si_status si = STEP_STOPPED -> so = ended STEP_STOPPED EVMC_SUCCESS rv (si_pc si) (msg_gas m) (si_refunds si) (si_stack si) (whole_words (si_mem si)) []) /\
    (si_status si = STEP_FAILED -> so = ended STEP_FAILED EVMC_INVALID_INSTRUCTION rv (si_pc si) 0 (si_refunds si) (si_stack si) (whole_words (si_mem si)) []).
Proof.
  intros R He Hs Hi. pose proof Hg as [G1 G2 G3 G4].
  destruct (step_n_idle (g_host g) (g_keccak g) (g_bufs g) (g_code_of g) G3
    (vm_call (g_host g) (g_keccak g) (g_tick g) (g_bufs g) false (g_handler g) levels) rv code m He v w si (reach_ok g Hg v R) Hs Hi) as (v' & E & _).
  cbv zeta in E. rewrite <- whole_words_eq in E. eexists. split.
  - exists v'. split; [exact E|]. exact (reach_step g v w rv code m si _ w v' R He Hs E).
  - cbn [so_pc so_stack so_refund so_mem]. do 4 (split; [reflexivity|]).
    repeat split; intro X; rewrite X; reflexivity.
Qed.

Definition counted (si : step_in) (n : Z) : step_in := mkIn (si_status si) (si_pc si) (si_refunds si) (si_stack si) (si_mem si) (si_ret si) n.
Lemma step_split v va w rv code m si n k : reach g v -> reach g va -> eok code m -> step_ok code m si -> si_status si = STEP_RUNNING -> 0 <= n -> 0 <= k ->
  exists so w' so1 w1 v1,
    steps_to g va w rv code m (counted si (n + k)) so w' /\
    StepN g v w rv code m (counted si n) = Ok (so1, w1, v1) /\ reach g v1 /\
    (so_step so1 <> STEP_RUNNING -> agree so so1 /\ w' = w1) /\
    (so_step so1 = STEP_RUNNING -> exists so2,
       steps_to g v1 w1 rv code (with_msg_gas (so_gas so1) m) (continue_in so1 k) so2 w' /\ agree so so2).
Proof.
  intros R Ra He Hs Hr Hn Hk. pose proof Hg as [G1 G2 G3 G4]. destruct (nested_ok g Hg (msg_depth m) (depth_ok g _ _ He)) as [C1 C2].
  destruct (step_compose (g_host g) (g_keccak g) (g_bufs g) (g_code_of g) G1 G2 G3 _ (nested g) rv code m He C1 C2 v va w si n k
    (reach_ok g Hg v R) (reach_ok g Hg va Ra) Hs Hr Hn Hk) as (so & w' & v' & so1 & w1 & v1 & A & B & C & D).
  unfold counted. rewrite Hr.
  assert (Hc : forall j, step_ok code m (mkIn STEP_RUNNING (si_pc si) (si_refunds si) (si_stack si) (si_mem si) (si_ret si) j)) by (intro j; destruct Hs; constructor; assumption).
  pose proof (reach_step g v w rv code m _ so1 w1 v1 R He (Hc n) B) as R1.
  exists so, w', so1, w1, v1. split; [exists v'; split; [exact A | exact (reach_step g va w rv code m _ so w' v' Ra He (Hc _) A)]|].
  split; [exact B|]. split; [exact R1|]. split; [exact C|]. intro Hrun. destruct (D Hrun) as (so2 & v2 & E & F). exists so2. split; [|exact F].
  exists v2. split; [exact E|].
  destruct (stepn_reference g Hg v w rv code m (mkIn STEP_RUNNING (si_pc si) (si_refunds si) (si_stack si) (si_mem si) (si_ret si) n) R He (Hc n) eq_refl)
    as (so3 & w3 & v3 & E3 & _ & S3 & T3).
  change (StepN g v w rv code m (mkIn STEP_RUNNING (si_pc si) (si_refunds si) (si_stack si) (si_mem si) (si_ret si) n) = Ok (so1, w1, v1)) in B.
  rewrite B in E3. injection E3 as <- <- <-. cbn [si_steps] in *. unfold step_shows in S3. fold (ref_run g m rv code) in S3.
  destruct (ref_run g m rv code (Z.to_nat n) _) as [f1|h d f1|e f1] eqn:Q.
  - destruct S3 as [S3 _]. destruct (T3 _ eq_refl) as [St Le].
    assert (X := continue_ok rv code m f1 k so1 St S3). destruct X as [X _].
    refine (reach_step g v1 w1 rv code _ _ so2 w' v2 R1 _ X E).
    apply (exec_ok_gas (g_code_of g) code m He). pose proof (gas_bound g m code He). rewrite S3. cbn [shown so_gas].
    unfold still_ok in St. lia.
  - exfalso. destruct S3 as [-> _]. cbn in Hrun. destruct h; discriminate.
  - exfalso. destruct S3 as (? & ? & _ & _ & _ & X & _). congruence.
Qed.

Lemma step_execute v v0 w rv code m ns : reach g v -> reach g v0 -> eok code m -> (Z.to_nat (msg_gas m) < total ns)%nat ->
  exists so w' v' v0', drive (fun v w m si => StepN g v w rv code m si) ns v w m (start_out m rv) = Ok (so, w', v') /\
    Execute g v0 w rv code m = Ok (mkRes (so_status so) (so_gas so) (so_refund so) (so_output so) 0, w', v0') /\
    so_step so <> STEP_RUNNING /\ (so_status so = EVMC_REVERT <-> so_step so = STEP_REVERTED) /\
    (so_status so = EVMC_SUCCESS <-> so_step so = STEP_STOPPED \/ so_step so = STEP_RETURNED).
Proof.
  intros R R0 He Hn. pose proof Hg as [G1 G2 G3 G4].
  destruct (drive_reach g Hg v w rv code m ns R He) as (so & w' & v' & A & B).
  destruct (execute_reference g Hg v0 w rv code m R0 He) as (v0' & C & _).
  assert (X : reference g w rv code m = (mkRes (so_status so) (so_gas so) (so_refund so) (so_output so) 0, w') /\
    so_step so <> STEP_RUNNING /\ (so_status so = EVMC_REVERT <-> so_step so = STEP_REVERTED) /\
    (so_status so = EVMC_SUCCESS <-> so_step so = STEP_STOPPED \/ so_step so = STEP_RETURNED)).
  { rewrite reference_eq.
    assert (E : ref_run g m rv code (total ns) (initial m w) = ref_run g m rv code (S (Z.to_nat (msg_gas m))) (initial m w)).
    { apply (for_more (g_host g) (nested g) (g_keccak g) m rv code (is_dest code) (S (Z.to_nat (msg_gas m)))); [reflexivity | | lia].
      destruct (nested_ok g Hg (msg_depth m) (depth_ok g _ _ He)) as [C1 _].
      exact (run_ends g Hg (nested g) m rv code w He C1). }
    rewrite E in B.
    destruct (nested_ok g Hg (msg_depth m) (depth_ok g _ _ He)) as [C1 _].
    pose proof (run_ends g Hg (nested g) m rv code w He C1) as N. unfold ref_run in *.
    destruct (run_for (g_host g) (nested g) (g_keccak g) m rv code (is_dest code) (S (Z.to_nat (msg_gas m))) (initial m w)) as [f1|h d f1|e f1]; cbn [drive_shows result_of] in *.
    - exfalso. exact (N _ eq_refl).
    - destruct B as [-> ->]. cbn. split; [reflexivity|]. destruct h; cbn; (split; [discriminate|]); split; split; intro Q; auto; try discriminate Q; destruct Q; discriminate.
    - destruct B as (B1 & B2 & B3 & B4 & B5 & B6 & ->). rewrite B1, B2, B4, B5, B6. split; [reflexivity|].
      split; [discriminate|]. split; split; intro Q; destruct e; cbn in Q; try discriminate Q; destruct Q; discriminate. }
  destruct X as (X1 & X2 & X3 & X4). exists so, w', v', v0'. split; [exact A|]. split; [rewrite C, X1; reflexivity|]. auto.
Qed.

Lemma failing_step_stack v w rv code m si so w' v' : reach g v -> eok code m -> step_ok code m si -> si_status si = STEP_RUNNING -> si_steps si = 1 ->
  StepN g v w rv code m si = Ok (so, w', v') -> so_step so = STEP_FAILED -> so_stack so = si_stack si /\ so_mem so = whole_words (si_mem si) /\ so_refund so = si_refunds si.
Proof.
  intros R He Hs Hr H1 E F. assert (A : at_op g v code m si (code_at code (si_pc si))) by (constructor; auto).
  destruct (one_step g Hg v w rv code m si _ A) as (so1 & w1 & v1 & E1 & _ & S & _). rewrite E in E1. injection E1 as <- <- <-.
  destruct (ref_step g m rv code (frame_in m w si)) as [f|h d f|e f]; cbn [one_result] in S.
  - destruct S as [-> _]. discriminate.
  - destruct S as [-> _]. cbn in F. destruct h; discriminate.
  - destruct S as [S _]. split; [exact (fld_stack _ _ _ _ S)|]. split; [exact (fld_mem _ _ _ _ S) | exact (fld_refund _ _ _ _ S)].
Qed.
Lemma failing_batch_height v w rv code m si so w' v' : reach g v -> eok code m -> step_ok code m si -> si_status si = STEP_RUNNING ->
  StepN g v w rv code m si = Ok (so, w', v') -> so_step so = STEP_FAILED -> zlen (so_stack so) = zlen (si_stack si).
Proof.
  intros R He Hs Hr E F. destruct (stepn_reference g Hg v w rv code m si R He Hs Hr) as (so1 & w1 & v1 & E1 & _ & S & _).
  rewrite E in E1. injection E1 as <- <- <-. unfold step_shows in S. destruct (run_for _ _ _ _ _ _ _ _ _) as [f|h d f|e f].
  - destruct S as [-> _]. discriminate.
  - destruct S as [-> _]. cbn in F. destruct h; discriminate.
  - destruct S as (k & f1 & S). tauto.
Qed.
End Step.

(** ** Computed StepN calls *)
(** a VM whose analysis cache is left abstract: messages without code hash do not touch it *)
Definition vm_with (infos : Lru.lru (K:=Z) (V:=cinfo)) (t a : nat) : vm :=
  mkVm false true true false false infos Sha3.sha3_new [] Profiler.profiler_new Profiler.profiler_new t a.
Lemma vm_new_with t a : vm_new t a = vm_with (Lru.clear 0 (mkCInfo [] []) kInfoCapacity) t a.
Proof. reflexivity. Qed.
Definition two_in (n : Z) : step_in := mkIn STEP_RUNNING 0 0 [7] [] [] n.
(** PUSH1 1 POP POP POP: the fourth instruction fails on the empty stack *)
Lemma batch_stack infos : exists so v',
  StepN (toy_setting []) (vm_with infos 0 0) toy0 London [0x60; 1; 0x50; 0x50; 0x50] (toy_msg 100 []) (two_in 4) = Ok (so, toy0, v') /\
  so_step so = STEP_FAILED /\ so_stack so = [7].
Proof. eexists _, _. split; [vm_compute; reflexivity | split; reflexivity]. Qed.
Lemma batch_before infos : exists v',
  StepN (toy_setting []) (vm_with infos 0 0) toy0 London [0x60; 1; 0x50; 0x50; 0x50] (toy_msg 100 []) (two_in 3) = Ok (running London 4 93 0 [] [] [], toy0, v').
Proof. eexists _. vm_compute. reflexivity. Qed.
Lemma batch_refuted : exists (code : list Z) (m : message) (si3 si4 : step_in),
  si_status si4 = STEP_RUNNING /\ step_ok code m si4 /\ si4 = counted si3 4 /\ si3 = counted si4 3 /\
  (exists v', StepN (toy_setting []) (vm_new 0 0) toy0 London code m si3 = Ok (running London 4 93 0 [] [] [], toy0, v')) /\
  (exists so v', StepN (toy_setting []) (vm_new 0 0) toy0 London code m si4 = Ok (so, toy0, v') /\ so_step so = STEP_FAILED /\ so_stack so = [7]).
Proof.
  exists [0x60; 1; 0x50; 0x50; 0x50], (toy_msg 100 []), (two_in 3), (two_in 4). split; [reflexivity|]. split.
  { constructor; [unfold zlen; cbn; lia | is_words | unfold zlen; cbn; lia | constructor | vm_compute; reflexivity | constructor
      | unfold zlen; cbn; lia | vm_compute; reflexivity]. }
  split; [reflexivity|]. split; [reflexivity|]. rewrite vm_new_with. generalize (Lru.clear 0 (mkCInfo [] []) kInfoCapacity). intro infos.
  split; [exact (batch_before infos) | exact (batch_stack infos)].
Qed.
