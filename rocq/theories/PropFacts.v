(** Consequences about complete executions, in the form in which the property files state them. *)
From Verif Require Import Base Host SpecEvm SpecTrace SpecVm Interp Vm SpecStep MemFacts SpecFacts VmFacts StepFacts Client ClientFacts FrameFacts
  SpecHost ApiFacts StaticFacts RunFacts SpecTop RefFacts Toy.
From Coq Require Import Lia ZArith List Bool.
Import ListNotations.

Section Exec.
Context {W : Type}.
Variable g : setting W.
Hypothesis Hg : setting_ok g.
Notation eok := (exec_ok (g_code_of g)).

Lemma result_eq v w rv code m r w' v' : reach g v -> eok code m -> Execute g v w rv code m = Ok (r, w', v') ->
  r = fst (reference g w rv code m) /\ w' = snd (reference g w rv code m) /\ reach g v'.
Proof.
  intros Hv He Ex. destruct (execute_reference g Hg v w rv code m Hv He) as [v1 [E1 R1]].
  rewrite E1 in Ex. injection Ex as <- <- <-. auto.
Qed.

Lemma initial_eq m (w : W) : f_gas (initial m w) = msg_gas m /\ f_refund (initial m w) = 0. Proof. split; reflexivity. Qed.

Lemma gas_bound m code : eok code m -> msg_gas m < 2 ^ 54.
Proof. intros He. destruct He as [Hm _ _ _ _]. destruct Hm as [_ _ G _ _ _ _ _]. lia. Qed.

Lemma reference_contract w rv code m : eok code m -> frame_contract m (fst (reference g w rv code m)).
Proof.
  intros He. pose proof (gas_bound _ _ He) as Hb.
  pose proof (run_spent g Hg m rv code (S (Z.to_nat (msg_gas m))) He (initial m w)
    (initial_still (g_code_of g) code m He w) Hb) as Sp.
  pose proof (run_ends g Hg (nested g) m rv code w He (proj1 (nested_ok g Hg (msg_depth m) (depth_ok g code m He)))) as Ends.
  rewrite (reference_eq g). fold (ref_run g) in Ends. unfold ref_run in *.
  destruct (run_for (g_host g) (nested g) (g_keccak g) m rv code (is_dest code) (S (Z.to_nat (msg_gas m))) (initial m w)) as [f|h out f|e f].
  - exfalso. apply (Ends f). reflexivity.
  - destruct (initial_eq m w) as [E1 E2]. cbn [spent] in Sp. destruct Sp as [Sg [Sd _]]. rewrite E1 in Sg.
    destruct Sd as [D1 D2 D3 D4]. rewrite E1 in *. rewrite E2 in *.
    split; cbn [result_of fst cr_gas_left cr_status cr_gas_refund cr_output]; try lia.
    destruct h; cbn; congruence.
  - destruct (initial_eq m w) as [E1 E2]. cbn [spent] in Sp. destruct Sp as [Sr _]. rewrite E1, E2 in Sr.
    split; cbn [result_of fst cr_gas_left cr_status cr_gas_refund cr_output]; try lia.
    intros _ _. split; reflexivity.
Qed.
Theorem execute_is_evm : (exists ref, evm g ref) /\
  forall ref, evm g ref -> forall v w rv code m, reach g v -> eok code m ->
    exists v', Execute g v w rv code m = Ok (fst (ref w rv code m), snd (ref w rv code m), v') /\ reach g v'.
Proof. split; [exists (reference g); apply reference_evm; exact Hg|]. intros. apply execute_evm; assumption. Qed.

Theorem always_defined v w rv code m : reach g v -> eok code m ->
  (exists r w' v', Execute g v w rv code m = Ok (r, w', v')) /\
  (forall si, step_ok code m si -> exists so w' v', StepN g v w rv code m si = Ok (so, w', v')).
Proof.
  intros Hv He. split.
  - destruct (execute_reference g Hg v w rv code m Hv He) as [v' [E _]]. eauto.
  - intros si Hs. destruct (si_status si) eqn:Es.
    1: destruct (stepn_reference g Hg v w rv code m si Hv He Hs Es) as (so & w' & v' & E & _); eauto.
    all: destruct (idle_ok g Hg v w rv code m si (reach_ok g Hg v Hv) He Hs ltac:(left; congruence)) as (so & v' & E & _); eauto.
Qed.

Theorem terminates v w rv code m : reach g v -> eok code m ->
  (exists r w' v', Execute g v w rv code m = Ok (r, w', v')) /\
  (forall n, exists so w', observed g v w rv code m n so w') /\
  (forall n so w', observed g v w rv code m n so w' -> Z.max 0 (msg_gas m) < Z.of_nat n -> so_step so <> STEP_RUNNING) /\
  (forall n so w', observed g v w rv code m n so w' -> so_step so = STEP_RUNNING -> so_gas so <= msg_gas m - Z.of_nat n).
Proof.
  intros Hv He. split; [apply (always_defined v w rv code m Hv He)|]. split; [|split].
  - intros n. destruct (drive_reach g Hg v w rv code m [Z.of_nat n] Hv He) as (so & w' & v' & E & _).
    exists so, w', [Z.of_nat n], v'. split; [|exact E]. cbn. rewrite Nat2Z.id. lia.
  - intros n so w' Ho Hn Hr. destruct (observed_spent g Hg v w rv code m n so w' Hv He Ho Hr) as [A [B _]].
    assert ((0 < n)%nat) by lia. specialize (B H). lia.
  - intros n so w' Ho Hr. apply (observed_spent g Hg v w rv code m n so w' Hv He Ho Hr).
Qed.

Theorem gas_contract v w rv code m : reach g v -> eok code m ->
  (forall r w' v', Execute g v w rv code m = Ok (r, w', v') ->
     0 <= cr_gas_left r <= Z.max 0 (msg_gas m) /\
     (cr_status r <> EVMC_SUCCESS -> cr_status r <> EVMC_REVERT -> cr_gas_left r = 0)) /\
  (forall si so w' v', step_ok code m si -> si_status si = STEP_RUNNING -> 0 <= msg_gas m -> StepN g v w rv code m si = Ok (so, w', v') ->
     0 <= so_gas so <= msg_gas m /\ (so_step so = STEP_FAILED -> so_gas so = 0)).
Proof.
  intros Hv He. split.
  - intros r w' v' Ex. destruct (result_eq v w rv code m r w' v' Hv He Ex) as [-> _].
    destruct (reference_contract w rv code m He) as [A B C]. split; [exact A|]. intros X Y. apply (B X Y).
  - intros si so w' v' Hs Hr Hgas Es. destruct (stepn_spent g Hg v w rv code m si so w' v' Hv He Hs Hr Hgas Es) as [A _ B _ _ _ _ _]. split; assumption.
Qed.

Theorem refund_bounded v w rv code m : reach g v -> eok code m ->
  (forall r w' v', Execute g v w rv code m = Ok (r, w', v') ->
     Z.abs (cr_gas_refund r) <= 199 * (Z.max 0 (msg_gas m) - cr_gas_left r) /\ Z.abs (cr_gas_refund r) < 2 ^ 63) /\
  (forall si so w' v', step_ok code m si -> si_status si = STEP_RUNNING -> 0 <= msg_gas m -> StepN g v w rv code m si = Ok (so, w', v') ->
     Z.abs (so_refund so - si_refunds si) <= 199 * (msg_gas m - so_gas so)).
Proof.
  intros Hv He. split.
  - intros r w' v' Ex. destruct (result_eq v w rv code m r w' v' Hv He Ex) as [-> _].
    destruct (reference_contract w rv code m He) as [A B C]. pose proof (gas_bound _ _ He). split; [exact C|lia].
  - intros si so w' v' Hs Hr Hgas Es. apply (stepn_spent g Hg v w rv code m si so w' v' Hv He Hs Hr Hgas Es).
Qed.

Theorem static_safe (P : W -> Prop) v w rv code m :
  reach g v -> eok code m -> Z.odd (msg_flags m) = true -> survives_access (g_host g) P -> P w ->
  ((forall w m', P w -> harmless m' -> P (snd (nested g w m'))) ->
     (forall r w' v', Execute g v w rv code m = Ok (r, w', v') -> P w') /\
     (forall si so w' v', step_ok code m si -> StepN g v w rv code m si = Ok (so, w', v') -> P w')) /\
  ((forall w m', P w -> harmless m' -> preserves P (g_handler g w m')) ->
     forall r w' v', Execute g v w rv code m = Ok (r, w', v') -> P w').
Proof.
  intros Hv He Hst HP Hw. split.
  - intros Hn. split.
    + intros. eapply (static_execute g Hg P); eassumption.
    + intros. eapply (static_stepn g Hg P); eassumption.
  - intros Hh r w' v' Ex. eapply (static_deep g Hg P); eassumption.
Qed.

(** a way to show what stepping shows *)
Lemma observed_case v w rv code m n so w' : reach g v -> eok code m ->
  match ref_run g m rv code n (initial m w) with Next f => shown STEP_RUNNING EVMC_FAILURE rv f (f_ret f) = so /\ f_world f = w' | _ => False end ->
  observed g v w rv code m n so w'.
Proof.
  intros Hv He X. destruct (drive_reach g Hg v w rv code m [Z.of_nat n] Hv He) as (so1 & w1 & v1 & E & S).
  cbn [total] in S. rewrite Nat2Z.id, Nat.add_0_r in S.
  destruct (ref_run g m rv code n (initial m w)) as [f|h d f|e f]; try contradiction. destruct X as [<- <-]. destruct S as [-> ->].
  exists [Z.of_nat n], v1. split; [|exact E]. cbn. rewrite Nat2Z.id. lia.
Qed.
End Exec.

(** stepping through the toy *)
Lemma toy_observed c rv code gas input n so w : Forall is_byte c -> zlen c <= 2 ^ 32 -> Forall is_byte code -> zlen code <= 2 ^ 32 ->
  - 2 ^ 63 <= gas < 2 ^ 54 -> Forall is_byte input -> zlen input < 2 ^ 63 ->
  match ref_run (toy_setting c) (toy_msg gas input) rv code n (initial (toy_msg gas input) toy0) with
  | Next f => shown STEP_RUNNING EVMC_FAILURE rv f (f_ret f) = so /\ f_world f = w | _ => False end ->
  observed (toy_setting c) (vm_new 0 0) toy0 rv code (toy_msg gas input) n so w.
Proof.
  intros. apply (observed_case (toy_setting c)); [apply toy_ok; assumption|apply reach_new|apply toy_exec; assumption|assumption].
Qed.
Ltac toy_observe := apply toy_observed; [bytes|unfold zlen; cbn; lia|bytes|unfold zlen; cbn; lia|lia|bytes|unfold zlen; cbn; lia|vm_compute; split; reflexivity].

(** one StepN call on the toy *)
Definition toy_in (pc : Z) (stack mem ret : list Z) : step_in := mkIn STEP_RUNNING pc 0 stack mem ret 1.
Lemma toy_at c code gas input pc stack mem ret op : Forall is_byte c -> zlen c <= 2 ^ 32 -> Forall is_byte code -> zlen code <= 2 ^ 32 ->
  - 2 ^ 63 <= gas < 2 ^ 53 -> Forall is_byte input -> zlen input < 2 ^ 63 ->
  0 <= pc <= zlen code + 32 -> Forall is_word stack -> zlen stack <= 1024 -> Forall is_byte mem -> Gmem (zlen mem) < 2 ^ 53 -> Forall is_byte ret -> zlen ret < 2 ^ 63 ->
  code_at code pc = op -> at_op (toy_setting c) (vm_new 0 0) code (toy_msg gas input) (toy_in pc stack mem ret) op.
Proof.
  intros. split; try assumption; try reflexivity; [apply reach_new| |].
  - apply toy_exec; try assumption. lia.
  - split; try assumption; cbn [toy_in toy_msg msg_gas si_mem si_refunds]; lia.
Qed.
Ltac is_words := repeat constructor; unfold is_word; lia.
Ltac toy_ready := apply toy_at; [bytes|unfold zlen; cbn; lia|bytes|unfold zlen; cbn; lia|lia|bytes|unfold zlen; cbn; lia|unfold zlen; cbn; lia|is_words|unfold zlen; cbn; lia|
  bytes|vm_compute; reflexivity|bytes|unfold zlen; cbn; lia|vm_compute; reflexivity].
Lemma toy_step c rv code gas input si op so w w' : Forall is_byte c -> zlen c <= 2 ^ 32 -> at_op (toy_setting c) (vm_new 0 0) code (toy_msg gas input) si op ->
  match ref_step (toy_setting c) (toy_msg gas input) rv code (frame_in (toy_msg gas input) w si) with
  | Next f => shown STEP_RUNNING EVMC_FAILURE rv f (f_ret f) = so /\ f_world f = w'
  | Halt h d f => shown (step_halt h) (halt_status h) rv f d = so /\ f_world f = w'
  | _ => False end ->
  steps_to (toy_setting c) (vm_new 0 0) w rv code (toy_msg gas input) si so w'.
Proof.
  intros Hc1 Hc2 Ho X. destruct (one_step (toy_setting c) (toy_ok c Hc1 Hc2) (vm_new 0 0) w rv code _ si op Ho) as (so1 & w1 & v1 & E & R & O & _).
  exists v1. split; [|exact R]. rewrite E.
  destruct (ref_step (toy_setting c) _ _ _ _); try contradiction; cbn [one_result] in O; destruct X as [<- <-]; destruct O as [-> ->]; reflexivity.
Qed.
Lemma toy_fails c rv code gas input si op sc w w' : Forall is_byte c -> zlen c <= 2 ^ 32 -> at_op (toy_setting c) (vm_new 0 0) code (toy_msg gas input) si op ->
  match ref_step (toy_setting c) (toy_msg gas input) rv code (frame_in (toy_msg gas input) w si) with
  | Fail e f => failure_status e = sc /\ f_world f = w'
  | _ => False end ->
  fails_with (toy_setting c) (vm_new 0 0) w rv code (toy_msg gas input) si sc w'.
Proof.
  intros Hc1 Hc2 Ho X. destruct (one_step (toy_setting c) (toy_ok c Hc1 Hc2) (vm_new 0 0) w rv code _ si op Ho) as (so1 & w1 & v1 & E & R & O & _).
  destruct (ref_step (toy_setting c) _ _ _ _); try contradiction; cbn [one_result] in O; destruct X as [<- <-]; destruct O as [O ->].
  exists so1. split; [|exact O]. exists v1. split; assumption.
Qed.
Ltac toy_one := eapply toy_step; [bytes|unfold zlen; cbn; lia|toy_ready|vm_compute; split; reflexivity].
Ltac toy_bad := eapply toy_fails; [bytes|unfold zlen; cbn; lia|toy_ready|vm_compute; split; reflexivity].
