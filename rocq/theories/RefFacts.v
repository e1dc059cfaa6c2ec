(** The reference of [SpecTop] exists, is unique, and is what Execute computes. *)
From Verif Require Import Base Host SpecEvm SpecVm MemFacts SpecFacts Sim Vm VmFacts SpecStep StepFacts Client ClientFacts SpecTop.
From Coq Require Import Lia ZArith List Bool.
Import ListNotations.

(** ** Complete runs *)
Section Runs.
Context {W : Type}.
Variable H : host W.
Variable call : W -> message -> cresult * W.
Variable keccak : list Z -> Z.
Variables (m : message) (rv : revision) (code : list Z).
Lemma step_dest d d' f : (forall x, d x = d' x) -> step H call keccak m rv code d f = step H call keccak m rv code d' f.
Proof.
  intros E. unfold step. set (b := code_at code (f_pc f)). destruct (instruction b) as [i|]; [|reflexivity].
  destruct (negb _); [reflexivity|]. destruct (_ && _); [reflexivity|]. destruct (_ <? _); [reflexivity|]. destruct (_ <? _); [reflexivity|].
  unfold charge. destruct (_ <? _); [reflexivity|]. generalize (with_gas (f_gas f - in_fee i) f). intros f1.
  assert (J : i_jump d f1 = i_jump d' f1) by (unfold i_jump; destruct (f_stack f1); [reflexivity|rewrite E; reflexivity]).
  assert (J2 : i_jumpi d f1 = i_jumpi d' f1) by (unfold i_jumpi; destruct (f_stack f1) as [|x [|y s]]; try reflexivity; rewrite E; reflexivity).
  clearbody b. destruct (Z.eq_dec b 0x56) as [->|N1]; [exact J|]. destruct (Z.eq_dec b 0x57) as [->|N2]; [exact J2|].
  destruct b as [|p|p]; try reflexivity. do 8 (destruct p as [p|p|]; try reflexivity; try (exfalso; first [apply N1; reflexivity|apply N2; reflexivity])).
Qed.
Lemma runs_dest d d' f o : (forall x, d x = d' x) -> runs H call keccak m rv code d f o -> runs H call keccak m rv code d' f o.
Proof.
  intros E. induction 1 as [f h out f' X|f e f' X|f f1 o X R IH]; rewrite (step_dest d d' f E) in X.
  - apply runs_halt. exact X.
  - apply runs_fail. exact X.
  - eapply runs_step; eassumption.
Qed.
Lemma runs_for d f o : runs H call keccak m rv code d f o -> (forall f', o <> Next f') /\ exists n, run_for H call keccak m rv code d n f = o.
Proof.
  induction 1 as [f h out f' X|f e f' X|f f1 o X R (IH1 & n & IH2)].
  - split; [discriminate|]. exists 1%nat. cbn [run_for]. rewrite X. reflexivity.
  - split; [discriminate|]. exists 1%nat. cbn [run_for]. rewrite X. reflexivity.
  - split; [exact IH1|]. exists (S n). cbn [run_for]. rewrite X. exact IH2.
Qed.
Lemma for_runs d n : forall f o, run_for H call keccak m rv code d n f = o -> (forall f', o <> Next f') -> runs H call keccak m rv code d f o.
Proof.
  induction n as [|n IH]; intros f o E Hf; cbn [run_for] in E; [exfalso; exact (Hf f (eq_sym E))|].
  destruct (step H call keccak m rv code d f) as [f1|h out f1|e f1] eqn:X.
  - eapply runs_step; [exact X|]. apply IH; assumption.
  - subst o. apply runs_halt. exact X.
  - subst o. apply runs_fail. exact X.
Qed.
Lemma for_more d k f o : run_for H call keccak m rv code d k f = o -> (forall f', o <> Next f') -> forall n, (k <= n)%nat -> run_for H call keccak m rv code d n f = o.
Proof.
  revert f. induction k as [|k IH]; intros f E Hf n Hn; cbn [run_for] in E; [exfalso; exact (Hf f (eq_sym E))|].
  destruct n as [|n]; [lia|]. cbn [run_for]. destruct (step H call keccak m rv code d f); try exact E. apply IH; [exact E|exact Hf|lia].
Qed.
(** a run has one outcome *)
Theorem runs_unique d f o o' : runs H call keccak m rv code d f o -> runs H call keccak m rv code d f o' -> o = o'.
Proof.
  intros R R'. destruct (runs_for d f o R) as (F & n & E). destruct (runs_for d f o' R') as (F' & n' & E').
  pose proof (for_more d n f o E F (n + n')%nat ltac:(lia)) as X. pose proof (for_more d n' f o' E' F' (n + n')%nat ltac:(lia)) as X'. congruence.
Qed.
End Runs.

Section Ref.
Context {W : Type}.
Variable g : setting W.
Hypothesis Hg : setting_ok g.
Notation hst := (g_host g).
Notation keccak := (g_keccak g).
Notation ev := (eval hst keccak (g_handler g)).
Notation eok := (exec_ok (g_code_of g)).

Lemma dest_eq code d : (forall x, d x = true <-> jumpdest code x) -> forall x, d x = is_dest code x.
Proof. intros Hd x. apply eq_true_iff_eq. rewrite (Hd x), is_dest_spec. tauto. Qed.

(** running a message, when its calls are answered within the gas contract, ends within gas + 1 instructions *)
Lemma run_ends call m rv code w : eok code m -> calls_ok call (msg_depth m) ->
  forall f', run_for hst call keccak m rv code (is_dest code) (S (Z.to_nat (msg_gas m))) (initial m w) <> Next f'.
Proof.
  intros He Hc. destruct Hg as [G1 G2 G3 G4]. 
  assert (Hcm : forall (w : W) v m', vm_ok keccak (g_code_of g) v -> msg_ok m' -> 0 <= msg_gas m' -> msg_depth m' = msg_depth m + 1 ->
     exists v', (fun w v m => Ok (fst (call w m), snd (call w m), v)) w v m' = Ok (fst (call w m'), snd (call w m'), v') /\ vm_ok keccak (g_code_of g) v') by eauto.
  destruct (drive_evaluate hst keccak (g_bufs g) (g_code_of g) G1 G2 G3 _ call rv code m He Hc Hcm
     [Z.of_nat (S (Z.to_nat (msg_gas m)))] (vm_new 0 0) w (vm_new_ok _ _ _ _)) as (so & w' & v' & E & _ & _ & _ & Hn).
  { cbn [total]. rewrite Nat2Z.id. lia. }
  destruct (drive_ok hst keccak (g_bufs g) (g_code_of g) G1 G2 G3 _ call rv code m He Hc Hcm [Z.of_nat (S (Z.to_nat (msg_gas m)))] (vm_new 0 0)
    (initial m w) (start_out m rv) (vm_new_ok _ _ _ _) (initial_still (g_code_of g) code m He w)) as (so2 & w2 & v2 & E2 & _ & S).
  { cbn [initial f_gas]. apply (mok_gas _ (eok_msg _ _ _ He)). }
  { reflexivity. }
  change (f_world (initial m w)) with w in E2. rewrite E in E2. injection E2 as <- <- <-.
  cbn [total] in S. rewrite Nat2Z.id, Nat.add_0_r in S. intros f' X. rewrite X in S. cbn [drive_shows] in S. destruct S as [-> _]. apply Hn. reflexivity.
Qed.

(** two ways of answering calls that agree on well-formed messages give the same result *)
Lemma evaluate_eq call call' w rv code m : eok code m -> calls_ok call (msg_depth m) ->
  (forall w m', msg_ok m' -> 0 <= msg_gas m' -> msg_depth m' = msg_depth m + 1 -> call w m' = call' w m') ->
  evaluate hst keccak call w rv code m = evaluate hst keccak call' w rv code m.
Proof.
  intros He Hc Heq. destruct Hg as [G1 G2 G3 G4].
  assert (Hc' : calls_ok call' (msg_depth m)) by (intros w0 m0 M1 M2 M3; rewrite <- (Heq w0 m0 M1 M2 M3); apply Hc; assumption).
  set (callm := fun (w : W) (v : vm) m => Ok (fst (call w m), snd (call w m), v)).
  destruct (execute_sim hst keccak (fun _ => 0) (g_bufs g) (g_code_of g) G1 G2 G3 callm call (vm_new 0 0) w rv code m (vm_new_ok _ _ _ _) He Hc) as (v1 & E1 & _ & _).
  { intros w0 v0 m0 V M1 M2 M3. exists v0. split; [reflexivity|exact V]. }
  destruct (execute_sim hst keccak (fun _ => 0) (g_bufs g) (g_code_of g) G1 G2 G3 callm call' (vm_new 0 0) w rv code m (vm_new_ok _ _ _ _) He Hc') as (v2 & E2 & _ & _).
  { intros w0 v0 m0 V M1 M2 M3. exists v0. split; [unfold callm; rewrite (Heq w0 m0 M1 M2 M3); reflexivity|exact V]. }
  rewrite E1 in E2. injection E2 as A B _. rewrite (surjective_pairing (evaluate hst keccak call w rv code m)), A, B, <- surjective_pairing. reflexivity.
Qed.

(** enough nesting levels for the message *)
Definition enough (n : nat) (m : message) : Prop := 1025 - msg_depth m <= Z.of_nat n.
Lemma eval_call_ok n w rv code m : eok code m -> enough n m -> 0 <= msg_gas m -> call_ok m (fst (ev n w rv code m)).
Proof.
  intros He Hn Hgas. destruct Hg as [G1 G2 G3 G4].
  destruct (exec_sim_vm hst keccak (g_tick g) (g_bufs g) (g_handler g) (g_code_of g) G1 G2 G3 G4 n (vm_new 0 0) w rv code m (vm_new_ok _ _ _ _) He Hn) as (v' & _ & _ & X).
  apply X, Hgas.
Qed.
Lemma eval_calls_ok n m code : eok code m -> enough (S n) m -> calls_ok (fun w m => play (ev n) (g_handler g w m)) (msg_depth m).
Proof.
  intros He Hn. destruct Hg as [G1 G2 G3 G4]. unfold enough in Hn. pose proof (mok_depth _ (eok_msg _ _ _ He)). pose proof (eok_depth _ _ _ He).
  apply (vm_call_ok hst keccak (g_tick g) (g_bufs g) (g_handler g) (g_code_of g) G4 n (msg_depth m) ltac:(lia)).
  intros v w rv code0 m0 Hv He0 Hd. apply (exec_sim_vm hst keccak (g_tick g) (g_bufs g) (g_handler g) (g_code_of g) G1 G2 G3 G4 n v w rv code0 m0 Hv He0). lia.
Qed.

(** an executor that agrees with [ev n] on the messages entered while dealing with a call *)
Lemma play_eq (ex ex' : executor W) m p : prog_ok (g_code_of g) m p ->
  (forall w rv code m', eok code m' -> msg_depth m' = msg_depth m -> 0 <= msg_gas m' -> ex w rv code m' = ex' w rv code m' /\ call_ok m' (fst (ex w rv code m'))) ->
  play ex p = play ex' p.
Proof.
  intros HP Hex. induction HP as [r w Hr|w rv code m' k He Hd Hgas Hk IH]; [reflexivity|].
  cbn [play]. destruct (Hex w rv code m' He Hd Hgas) as [E C]. rewrite <- E. destruct (ex w rv code m') as [r w']. apply IH. exact C.
Qed.

Theorem evm_unique ref : evm g ref -> forall n w rv code m, eok code m -> enough n m -> ref w rv code m = ev n w rv code m.
Proof.
  intros HR. induction n as [|n IH]; intros w rv code m He Hn.
  - unfold enough in Hn. pose proof (eok_depth _ _ _ He). lia.
  - pose proof (eval_calls_ok n m code He Hn) as Hc. unfold enough in *. pose proof (mok_depth _ (eok_msg _ _ _ He)) as Hd0. pose proof (eok_depth _ _ _ He) as Hd1.
    assert (Heq : forall w m', msg_ok m' -> 0 <= msg_gas m' -> msg_depth m' = msg_depth m + 1 -> play (ev n) (g_handler g w m') = host_call g ref w m').
    { intros w0 m' M1 M2 M3. unfold host_call. apply (play_eq _ _ m').
      - destruct Hg as [_ _ _ G4]. apply G4; [exact M1|exact M2|lia].
      - intros w1 rv1 code1 m1 He1 Hd Hg1. split; [symmetry; apply IH; [exact He1|lia]|apply eval_call_ok; [exact He1|unfold enough; lia|exact Hg1]]. }
    cbn [eval]. rewrite (evaluate_eq _ _ w rv code m He Hc Heq).
    destruct (HR w rv code m (is_dest code) He (is_dest_spec code)) as (o & Ro & ->).
    assert (Hc2 : calls_ok (host_call g ref) (msg_depth m)) by (intros w0 m0 M1 M2 M3; rewrite <- (Heq w0 m0 M1 M2 M3); apply Hc; assumption).
    unfold evaluate. f_equal. eapply runs_unique; [exact Ro|]. eapply for_runs; [reflexivity|]. apply run_ends; assumption.
Qed.
Theorem reference_evm : evm g (reference g).
Proof.
  intros w rv code m d He Hd.
  pose proof levels_ok as HL. pose proof (mok_depth _ (eok_msg _ _ _ He)) as Hd0. pose proof (eok_depth _ _ _ He) as Hd1.
  assert (Hn : enough (S levels) m) by (unfold enough; lia).
  pose proof (eval_calls_ok levels m code He Hn) as Hc.
  (* fuel does not matter *)
  assert (Hfuel : forall n n' w rv code m, eok code m -> enough n m -> enough n' m -> ev n w rv code m = ev n' w rv code m).
  { induction n as [|n IH]; intros n' w0 rv0 code0 m0 He0 Hn0 Hn0'; unfold enough in *; pose proof (eok_depth _ _ _ He0); [lia|].
    destruct n' as [|n']; [lia|]. cbn [eval]. apply evaluate_eq; [exact He0|apply (eval_calls_ok n m0 code0 He0); unfold enough; lia|].
    intros w1 m1 M1 M2 M3. apply (play_eq _ _ m1).
    - destruct Hg as [_ _ _ G4]. apply G4; [exact M1|exact M2|]. pose proof (mok_depth _ (eok_msg _ _ _ He0)). lia.
    - intros w2 rv2 code2 m2 He2 Hd2 Hg2. split; [apply IH; [exact He2|lia|lia]|apply eval_call_ok; [exact He2|unfold enough; lia|exact Hg2]]. }
  assert (Heq : forall w m', msg_ok m' -> 0 <= msg_gas m' -> msg_depth m' = msg_depth m + 1 -> play (ev levels) (g_handler g w m') = host_call g (reference g) w m').
  { intros w0 m' M1 M2 M3. unfold host_call. apply (play_eq _ _ m').
    - destruct Hg as [_ _ _ G4]. apply G4; [exact M1|exact M2|lia].
    - intros w1 rv1 code1 m1 He1 Hd2 Hg1. split; [apply Hfuel; [exact He1|unfold enough; lia|unfold enough; lia]|apply eval_call_ok; [exact He1|unfold enough; lia|exact Hg1]]. }
  assert (Hc2 : calls_ok (host_call g (reference g)) (msg_depth m)) by (intros w0 m0 M1 M2 M3; rewrite <- (Heq w0 m0 M1 M2 M3); apply Hc; assumption).
  eexists. split.
  - apply (runs_dest _ _ _ _ _ _ (is_dest code)); [intros x; symmetry; apply dest_eq; exact Hd|].
    eapply for_runs; [reflexivity|]. apply (run_ends _ m rv code w He Hc2).
  - transitivity (evaluate hst keccak (host_call g (reference g)) w rv code m); [|reflexivity].
    unfold reference at 1. cbn [eval]. apply evaluate_eq; [exact He|exact Hc|exact Heq].
Qed.
Lemma enough_levels code m : eok code m -> enough (S levels) m.
Proof. intros He. pose proof levels_ok. unfold enough. pose proof (mok_depth _ (eok_msg _ _ _ He)). lia. Qed.

Theorem execute_evm ref v w rv code m : evm g ref -> reach g v -> eok code m ->
  exists v', Execute g v w rv code m = Ok (fst (ref w rv code m), snd (ref w rv code m), v') /\ reach g v'.
Proof.
  intros HR Hv He. rewrite (evm_unique ref HR (S levels) w rv code m He (enough_levels code m He)). apply execute_reference; assumption.
Qed.
End Ref.
