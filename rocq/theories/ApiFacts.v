(** Facts about whole runs, as a client of the API observes them. *)
From Verif Require Import Base Host SpecEvm SpecCall SpecVm MemFacts JumpFacts SpecFacts SpecHost FrameFacts Vm VmFacts SpecStep StepFacts Client ClientFacts OpFacts.
From Coq Require Import Lia ZArith List Bool.
Import ListNotations.

Section Api.
Context {W : Type}.
Variable g : setting W.
Hypothesis Hg : setting_ok g.
Notation hst := (g_host g).
Notation keccak := (g_keccak g).

Lemma drive_reach v w rv code m ns : reach g v -> exec_ok (g_code_of g) code m ->
  exists so w' v', drive (fun v w m si => StepN g v w rv code m si) ns v w m (start_out m rv) = Ok (so, w', v') /\
    drive_shows rv (ref_run g m rv code (total ns) (initial m w)) so w'.
Proof.
  intros Hv He. pose proof Hg as [G1 G2 G3 G4]. destruct (nested_ok g Hg (msg_depth m) (depth_ok g _ _ He)) as [C1 C2].
  pose proof (mok_gas _ (eok_msg _ _ _ He)) as Hgas.
  destruct (drive_ok hst keccak (g_bufs g) (g_code_of g) G1 G2 G3 _ (nested g) rv code m He C1 C2 ns v (initial m w) (start_out m rv)
    (reach_ok g Hg v Hv) (initial_still (g_code_of g) code m He w) ltac:(cbn; lia) eq_refl) as (so & w' & v' & E & _ & S).
  exists so, w', v'. split; [exact E|exact S].
Qed.
Lemma observed_shows v w rv code m n so w' : reach g v -> exec_ok (g_code_of g) code m -> observed g v w rv code m n so w' ->
  drive_shows rv (ref_run g m rv code n (initial m w)) so w'.
Proof.
  intros Hv He (ns & v' & <- & E). destruct (drive_reach v w rv code m ns Hv He) as (so2 & w2 & v2 & E2 & S). rewrite E in E2.
  injection E2 as -> -> ->. exact S.
Qed.
Lemma observed_running v w rv code m n so w' : reach g v -> exec_ok (g_code_of g) code m -> observed g v w rv code m n so w' ->
  so_step so = STEP_RUNNING ->
  exists f, ref_run g m rv code n (initial m w) = Next f /\ so = shown STEP_RUNNING EVMC_FAILURE rv f (f_ret f) /\ w' = f_world f.
Proof.
  intros Hv He Ho Hr. pose proof (observed_shows v w rv code m n so w' Hv He Ho) as S.
  destruct (ref_run g m rv code n (initial m w)) as [f|h d f|e f]; cbn [drive_shows] in S.
  - exists f. destruct S. auto.
  - exfalso. destruct S as [-> _]. cbn in Hr. destruct h; discriminate.
  - exfalso. destruct S as [S _]. rewrite S in Hr. discriminate.
Qed.

(** states of a run *)
Lemma reached_still m rv code w n f : exec_ok (g_code_of g) code m -> ref_run g m rv code n (initial m w) = Next f -> still_ok code f.
Proof.
  intros He Er. pose proof Hg as [G1 G2 G3 G4]. destruct (nested_ok g Hg (msg_depth m) (depth_ok g _ _ He)) as [C1 C2].
  pose proof (mok_gas _ (eok_msg _ _ _ He)) as Hgas.
  destruct (all_still hst keccak (g_bufs g) (g_code_of g) G1 G2 G3 _ (nested g) rv code m He C1 C2 (initial m w)
    (initial_still (g_code_of g) code m He w) ltac:(cbn; lia) n f Er) as [S _]. exact S.
Qed.
Lemma still_sane code f : still_ok (W:=W) code f -> 0 <= f_gas f -> sane f.
Proof. intros (S0 & S1 & S2 & S3 & S4 & S5 & S6 & S7 & S8 & _) Hg0. unfold sane. split; [exact Hg0|]. split; [exact S7|]. split; [exact S2|]. split; [exact S4|]. lia. Qed.
Lemma ref_step_good m rv code f : exec_ok (g_code_of g) code m -> still_ok code f -> 0 <= f_gas f -> good 1 f (ref_step g m rv code f).
Proof.
  intros He HS Hf. pose proof Hg as [G1 G2 G3 G4]. destruct (nested_ok g Hg (msg_depth m) (depth_ok g _ _ He)) as [C1 C2].
  unfold ref_step. apply step_good; try assumption. all: try apply (eok_msg _ _ _ He). all: try apply (eok_code _ _ _ He). apply (still_sane code); assumption.
Qed.
Lemma broke m rv code f : exec_ok (g_code_of g) code m -> f_gas f < 0 -> match ref_step g m rv code f with Fail _ _ => True | _ => False end.
Proof.
  intros He Hf. unfold ref_step, step. set (b := code_at code (f_pc f)). assert (Hb : is_byte b) by (apply code_at_byte, (eok_code _ _ _ He)).
  destruct (instruction b) as [i|] eqn:Ei; [|destruct (_ <? _); exact I].
  destruct (negb _); [exact I|]. destruct (_ && _); [exact I|]. destruct (_ <? _); [exact I|]. destruct (_ <? _); [exact I|].
  pose proof (fee_nn b i Hb Ei). unfold charge. destruct (Z.ltb_spec (f_gas f) (in_fee i)); [exact I|lia].
Qed.
Lemma ref_step_next m rv code f f' : exec_ok (g_code_of g) code m -> still_ok code f -> ref_step g m rv code f = Next f' -> 0 <= f_gas f /\ dec 1 f f'.
Proof.
  intros He HS E. destruct (Z.lt_ge_cases (f_gas f) 0) as [Hn|Hn].
  - pose proof (broke m rv code f He Hn) as X. rewrite E in X. destruct X.
  - pose proof (ref_step_good m rv code f He HS Hn) as X. rewrite E in X. auto.
Qed.
Lemma run_succ m rv code n f : ref_run g m rv code (S n) f = match ref_run g m rv code n f with Next f1 => ref_step g m rv code f1 | o => o end.
Proof.
  unfold ref_run. rewrite <- Nat.add_1_r, run_for_app. destruct (run_for _ _ _ _ _ _ _ n f) as [f1| |]; auto. cbn [run_for]. unfold ref_step.
  destruct (step _ _ _ _ _ _ _ f1); reflexivity.
Qed.
Lemma run_plus m rv code a b f : ref_run g m rv code (a + b) f = match ref_run g m rv code a f with Next f1 => ref_run g m rv code b f1 | o => o end.
Proof. unfold ref_run. apply run_for_app. Qed.

(** gas, memory and refund along a run *)
Lemma run_dec m rv code w a : exec_ok (g_code_of g) code m -> forall b f1 f2,
  ref_run g m rv code a (initial m w) = Next f1 -> ref_run g m rv code b f1 = Next f2 ->
  (b = O /\ f2 = f1) \/ ((0 < b)%nat /\ dec (Z.of_nat b) f1 f2).
Proof.
  intros He. induction b as [|b IH]; intros f1 f2 E1 E2.
  - left. cbn in E2. injection E2 as <-. auto.
  - right. split; [lia|]. rewrite run_succ in E2. destruct (ref_run g m rv code b f1) as [fm| |] eqn:Em; try discriminate.
    assert (HS : still_ok code fm). { eapply (reached_still m rv code w (a + b)); [exact He|]. rewrite run_plus, E1. exact Em. }
    destruct (ref_step_next m rv code fm f2 He HS E2) as [Hn [D1 D2 D3 D4]].
    destruct (IH f1 fm E1 Em) as [[-> ->]|[_ [I1 I2 I3 I4]]].
    + split; lia.
    + split; try lia. 
Qed.

(** every instruction executed is an instruction of the code or lies behind its end *)
Lemma ref_step_effect m rv code f : exec_ok (g_code_of g) code m -> forall f', ref_step g m rv code f = Next f' ->
  exists i, let b := code_at code (f_pc f) in instruction b = Some i /\ rev_ge rv (in_since i) = true /\ in_stateful i && static m = false /\
    in_args i <= zlen (f_stack f) /\ zlen (f_stack f) - in_args i + in_results i <= 1024 /\ in_fee i <= f_gas f /\
    effect hst (nested g) m (is_dest code) b (in_args i) (in_results i) f (Next f').
Proof.
  intros He f' E. unfold ref_step, step in E. set (b := code_at code (f_pc f)) in *. assert (Hb : is_byte b) by (apply code_at_byte, (eok_code _ _ _ He)).
  destruct (instruction b) as [i|] eqn:Ei; [|destruct (_ <? _) in E; discriminate]. exists i. cbv zeta.
  destruct (rev_ge rv (in_since i)) eqn:Er; [|discriminate]. destruct (in_stateful i && static m) eqn:Es; [discriminate|]. cbn [negb] in E.
  destruct (Z.ltb_spec (zlen (f_stack f)) (in_args i)) as [|Ha]; [discriminate|]. destruct (Z.ltb_spec 1024 (zlen (f_stack f) - in_args i + in_results i)) as [|Ho]; [discriminate|].
  unfold charge in E. destruct (Z.ltb_spec (f_gas f) (in_fee i)); [discriminate|].
  repeat (split; [first [reflexivity|assumption]|]).
  pose proof (exec_effect hst (nested g) keccak m rv code (is_dest code) b i (with_gas (f_gas f - in_fee i) f) Hb Ei Ha) as X. rewrite E in X. exact X.
Qed.
Lemma stop_at_end m rv code f : zlen code <= f_pc f -> match ref_step g m rv code f with Next _ => False | _ => True end.
Proof.
  intros Hp. unfold ref_step, step. assert (code_at code (f_pc f) = 0) as -> by (apply data_at_out; lia).
  change (instruction 0) with (Some (mkInstr 0 0 0 Istanbul false)). cbv iota beta. destruct (negb _); [exact I|]. destruct (_ && _); [exact I|]. destruct (_ <? _); [exact I|]. destruct (_ <? _); [exact I|].
  unfold charge. destruct (_ <? _); exact I.
Qed.
Theorem run_pc m rv code w n : exec_ok (g_code_of g) code m -> forall f, ref_run g m rv code n (initial m w) = Next f ->
  instr_start code (f_pc f).
Proof.
  intros He. induction n as [|n IH]; intros f E.
  - cbn in E. injection E as <-. apply start_zero.
  - rewrite run_succ in E. destruct (ref_run g m rv code n (initial m w)) as [f1| |] eqn:E1; try discriminate.
    specialize (IH f1 eq_refl). destruct (Z.lt_ge_cases (f_pc f1) (zlen code)) as [Hp|Hp].
    + destruct (ref_step_effect m rv code f1 He f E) as (i & _ & _ & _ & _ & _ & _ & (_ & Hpc & _)).
      destruct Hpc as [->|[_ Hd]]; [apply start_next; assumption|]. apply is_dest_spec in Hd. apply Hd.
    + pose proof (stop_at_end m rv code f1 Hp) as X. rewrite E in X. destruct X.
Qed.

(** ** The checks that precede every instruction *)
Definition checks (m : message) (rv : revision) (height op : Z) : option failure :=
  match instruction op with
  | None => Some (if msg_gas m <? 0 then OutOfGas else InvalidInstruction)
  | Some i =>
    if negb (rev_ge rv (in_since i)) then Some UndefinedInstruction
    else if in_stateful i && static m then Some StaticViolation
    else if height <? in_args i then Some StackUnderflow
    else if 1024 <? height - in_args i + in_results i then Some StackOverflow
    else if msg_gas m <? in_fee i then Some OutOfGas
    else None
  end.
Lemma step_checks v w rv code m si op so w' : at_op g v code m si op -> steps_to g v w rv code m si so w' ->
  match checks m rv (zlen (si_stack si)) op with
  | Some e => failed rv si (failure_status e) so /\ w' = w
  | None => exists i o, instruction op = Some i /\ one_result rv si o so w' /\
      o = SpecEvm.exec hst (nested g) keccak m rv code (is_dest code) op (with_gas (msg_gas m - in_fee i) (frame_in m w si)) /\
      effect hst (nested g) m (is_dest code) op (in_args i) (in_results i) (frame_in m w si) o
  end.
Proof.
  intros Ho (v' & E & _). destruct (one_step g Hg v w rv code m si op Ho) as (so2 & w2 & v2 & E2 & _ & R & _). rewrite E in E2. injection E2 as <- <- <-.
  pose proof (at_code _ _ _ _ _ _ Ho) as Hc. pose proof (at_exec _ _ _ _ _ _ Ho) as He.
  assert (Hb : is_byte op) by (rewrite <- Hc; apply code_at_byte, (eok_code _ _ _ He)).
  unfold checks. unfold ref_step, step in R. change (f_pc (frame_in m w si)) with (si_pc si) in R. rewrite Hc in R. change (f_gas (frame_in m w si)) with (msg_gas m) in R.
  change (f_stack (frame_in m w si)) with (rev (si_stack si)) in R.
  assert (El : zlen (rev (si_stack si)) = zlen (si_stack si)) by (unfold zlen; rewrite rev_length; reflexivity). rewrite El in R.
  destruct (instruction op) as [i|] eqn:Ei.
  2:{ destruct (msg_gas m <? 0); exact R. }
  destruct (negb _); [exact R|]. destruct (_ && _); [exact R|].
  destruct (Z.ltb_spec (zlen (si_stack si)) (in_args i)) as [|Ha]; [exact R|]. destruct (Z.ltb_spec 1024 (zlen (si_stack si) - in_args i + in_results i)) as [|Hx]; [exact R|].
  unfold charge in R. change (f_gas (frame_in m w si)) with (msg_gas m) in R. destruct (Z.ltb_spec (msg_gas m) (in_fee i)); [exact R|].
  eexists i, _. split; [reflexivity|]. split; [exact R|]. split; [reflexivity|].
  apply (exec_effect hst (nested g) keccak m rv code (is_dest code) op i (with_gas (msg_gas m - in_fee i) (frame_in m w si)) Hb Ei).
  change (f_stack (with_gas (msg_gas m - in_fee i) (frame_in m w si))) with (rev (si_stack si)). rewrite El. exact Ha.
Qed.
(** statuses that only the checks report *)
Lemma check_status v w rv code m si op so w' e : at_op g v code m si op -> steps_to g v w rv code m si so w' -> of_checks e = true ->
  so_status so = failure_status e <-> checks m rv (zlen (si_stack si)) op = Some e.
Proof.
  intros Ho St Hce. pose proof (step_checks v w rv code m si op so w' Ho St) as X. destruct (checks m rv (zlen (si_stack si)) op) as [e'|].
  - destruct X as [[_ Xs _ _ _ _ _ _ _] _]. rewrite Xs. split; [|intros Y; injection Y as <-; reflexivity].
    destruct e, e'; try discriminate Hce; cbn; intros Y; try discriminate Y; reflexivity.
  - split; [|discriminate]. destruct X as (i & o & _ & R & _ & Ef). intros Hs. exfalso. destruct o as [f'|h d f'|e' f']; cbn [one_result effect] in *.
    + destruct R as [-> _]. cbn in Hs. destruct e; discriminate.
    + destruct R as [-> _]. cbn in Hs. destruct h, e; discriminate.
    + destruct R as [[_ Rs _ _ _ _ _ _ _] _]. rewrite Rs in Hs. destruct Ef as [Hce' _]. destruct e, e'; try discriminate.
Qed.

Lemma table_assigned op : is_byte op -> (instruction op = None <-> assigned op = false).
Proof.
  intros Hb. assert (X : match instruction op with Some _ => assigned op | None => negb (assigned op) end = true).
  { revert op Hb. apply byte_cases. cbn [seq map Z.of_nat Pos.of_succ_nat Pos.succ]. repeat (apply Forall_cons; [reflexivity|]). apply Forall_nil. }
  destruct (instruction op); [|apply negb_true_iff in X]; rewrite X; split; congruence.
Qed.
Definition since_of (op : Z) : revision := match find (fun p => op =? fst p) introduced with Some p => snd p | None => Istanbul end.
Lemma table_since op i : is_byte op -> instruction op = Some i -> in_since i = since_of op.
Proof.
  intros Hb Ei. assert (X : match instruction op with Some i => in_since i = since_of op | None => True end).
  { clear Ei i. revert op Hb. apply byte_cases. cbn [seq map Z.of_nat Pos.of_succ_nat Pos.succ]. repeat (apply Forall_cons; [first [exact I|reflexivity]|]). apply Forall_nil. }
  rewrite Ei in X. exact X.
Qed.
Lemma table_modifying op i : is_byte op -> instruction op = Some i -> in_stateful i = is_modifying op.
Proof.
  intros Hb Ei. assert (X : match instruction op with Some i => in_stateful i = is_modifying op | None => True end).
  { clear Ei i. revert op Hb. apply byte_cases. cbn [seq map Z.of_nat Pos.of_succ_nat Pos.succ]. repeat (apply Forall_cons; [first [exact I|reflexivity]|]). apply Forall_nil. }
  rewrite Ei in X. exact X.
Qed.
Lemma since_introduced op rv : rev_ge rv (since_of op) = false <-> exists since, In (op, since) introduced /\ rev_ge rv since = false.
Proof.
  unfold since_of. split.
  - destruct (find _ introduced) as [[o s]|] eqn:E; [|rewrite istanbul; discriminate].
    apply find_some in E. destruct E as [E1 E2]. cbn [fst snd] in *. apply Z.eqb_eq in E2. subst. eauto.
  - intros (since & Hin & Hr). cbn in Hin. repeat (destruct Hin as [Hin|Hin]; [injection Hin as <- <-; exact Hr|]). destruct Hin.
Qed.

Theorem undefined_exactly v w rv code m si op so w' : at_op g v code m si op -> steps_to g v w rv code m si so w' ->
  so_status so = EVMC_UNDEFINED_INSTRUCTION <-> exists since, In (op, since) introduced /\ rev_ge rv since = false.
Proof.
  intros Ho St. rewrite <- since_introduced. rewrite (check_status v w rv code m si op so w' UndefinedInstruction Ho St eq_refl).
  pose proof (at_byte g v code m si op Ho) as Hb. unfold checks. destruct (instruction op) as [i|] eqn:Ei.
  - rewrite (table_since op i Hb Ei). destruct (rev_ge rv (since_of op)) eqn:Er; cbn [negb]; [|tauto].
    split; [|discriminate]. destruct (_ && _); [discriminate|]. destruct (_ <? _); [discriminate|]. destruct (_ <? _); [discriminate|]. destruct (_ <? _); discriminate.
  - split; [destruct (_ <? _); discriminate|]. intros Hs. exfalso. apply since_introduced in Hs. destruct Hs as (s & Hin & _).
    cbn in Hin. repeat (destruct Hin as [Hin|Hin]; [injection Hin as <- <-; discriminate Ei|]). destruct Hin.
Qed.
Theorem invalid_exactly v w rv code m si op so w' : at_op g v code m si op -> steps_to g v w rv code m si so w' -> 0 <= msg_gas m ->
  so_status so = EVMC_INVALID_INSTRUCTION <-> assigned op = false.
Proof.
  intros Ho St Hgas. rewrite (check_status v w rv code m si op so w' InvalidInstruction Ho St eq_refl).
  rewrite <- (table_assigned op (at_byte g v code m si op Ho)).
  unfold checks. destruct (instruction op) as [i|] eqn:Ei.
  - split; [|discriminate]. destruct (negb _); [discriminate|]. destruct (_ && _); [discriminate|]. destruct (_ <? _); [discriminate|]. destruct (_ <? _); [discriminate|]. destruct (_ <? _); discriminate.
  - destruct (Z.ltb_spec (msg_gas m) 0); [lia|]. tauto.
Qed.
(** an instruction that is available: assigned, introduced, not forbidden *)
Definition available (m : message) (rv : revision) (op : Z) (i : instr) : Prop :=
  instruction op = Some i /\ rev_ge rv (in_since i) = true /\ (in_stateful i = true -> static m = false).
Lemma checks_available m rv h op i : available m rv op i -> checks m rv h op =
  if h <? in_args i then Some StackUnderflow else if 1024 <? h - in_args i + in_results i then Some StackOverflow else if msg_gas m <? in_fee i then Some OutOfGas else None.
Proof.
  intros (Ei & Er & Es). unfold checks. rewrite Ei, Er. cbn [negb].
  destruct (in_stateful i); [rewrite Es by reflexivity|]; reflexivity.
Qed.
Theorem underflow_exactly v w rv code m si op i so w' : at_op g v code m si op -> steps_to g v w rv code m si so w' -> available m rv op i ->
  so_status so = EVMC_STACK_UNDERFLOW <-> zlen (si_stack si) < in_args i.
Proof.
  intros Ho St Av. rewrite (check_status v w rv code m si op so w' StackUnderflow Ho St eq_refl), (checks_available m rv _ op i Av).
  destruct (Z.ltb_spec (zlen (si_stack si)) (in_args i)); [tauto|]. split; [|lia]. destruct (_ <? _); [discriminate|]. destruct (_ <? _); discriminate.
Qed.
Theorem overflow_exactly v w rv code m si op i so w' : at_op g v code m si op -> steps_to g v w rv code m si so w' -> available m rv op i ->
  so_status so = EVMC_STACK_OVERFLOW <-> in_args i <= zlen (si_stack si) /\ 1024 < zlen (si_stack si) - in_args i + in_results i.
Proof.
  intros Ho St Av. rewrite (check_status v w rv code m si op so w' StackOverflow Ho St eq_refl), (checks_available m rv _ op i Av).
  destruct (Z.ltb_spec (zlen (si_stack si)) (in_args i)); [split; [discriminate|lia]|].
  destruct (Z.ltb_spec 1024 (zlen (si_stack si) - in_args i + in_results i)); [tauto|]. split; [|lia]. destruct (_ <? _); discriminate.
Qed.
Theorem height_after v w rv code m si op i so w' : at_op g v code m si op -> steps_to g v w rv code m si so w' -> instruction op = Some i ->
  so_step so = STEP_RUNNING -> zlen (so_stack so) = zlen (si_stack si) - in_args i + in_results i.
Proof.
  intros Ho St Ei Hr. pose proof (step_checks v w rv code m si op so w' Ho St) as X. destruct (checks m rv (zlen (si_stack si)) op) as [e'|].
  - destruct X as [[Xs _ _ _ _ _ _ _ _] _]. congruence.
  - destruct X as (i' & o & Ei' & R & _ & Ef). rewrite Ei in Ei'. injection Ei' as <-. destruct o as [f'|h d f'|e' f']; cbn [one_result effect] in *.
    + destruct R as [-> _]. cbn [shown so_stack]. unfold zlen at 1. rewrite rev_length. fold (zlen (f_stack f')). destruct Ef as [-> _].
      change (f_stack (frame_in m w si)) with (rev (si_stack si)). unfold zlen. rewrite rev_length. reflexivity.
    + destruct R as [-> _]. cbn in Hr. destruct h; discriminate.
    + destruct R as [[Rs _ _ _ _ _ _ _ _] _]. congruence.
Qed.
(** an instruction that fails has made no change of the host's state besides accessing accounts and slots; SSTORE excepted *)
Theorem failing_warms v w rv code m si op so w' : at_op g v code m si op -> steps_to g v w rv code m si so w' ->
  so_step so = STEP_FAILED -> op <> 0x55 -> warms hst w w'.
Proof.
  intros Ho St Hs Hn. pose proof (step_checks v w rv code m si op so w' Ho St) as X. destruct (checks m rv (zlen (si_stack si)) op) as [e'|].
  - destruct X as [_ ->]. apply warm_none.
  - destruct X as (i' & o & Ei' & R & _ & Ef). destruct o as [f'|h d f'|e' f']; cbn [one_result effect] in *.
    + destruct R as [-> _]. discriminate Hs.
    + destruct R as [-> _]. cbn in Hs. destruct h; discriminate.
    + destruct R as [_ ->]. destruct Ef as [_ Ef]. exact (Ef Hn).
Qed.
(** ... and instructions other than those that modify state or make calls only do that in any case *)
Theorem reading_warms v w rv code m si op so w' : at_op g v code m si op -> steps_to g v w rv code m si so w' ->
  ~ In op modifying -> ~ In op asking -> warms hst w w'.
Proof.
  intros Ho St N1 N2. pose proof (step_checks v w rv code m si op so w' Ho St) as X. destruct (checks m rv (zlen (si_stack si)) op) as [e'|].
  - destruct X as [_ ->]. apply warm_none.
  - assert (A1 : is_asking op = false). { unfold is_asking. apply not_true_is_false. intros A. apply existsb_exists in A. destruct A as (x & A & B). apply Z.eqb_eq in B. subst. auto. }
    assert (A2 : is_modifying op = false). { unfold is_modifying. apply not_true_is_false. intros A. apply existsb_exists in A. destruct A as (x & A & B). apply Z.eqb_eq in B. subst. auto. }
    destruct X as (i' & o & Ei' & R & _ & Ef). destruct o as [f'|h d f'|e' f']; cbn [one_result effect] in *.
    + destruct R as [_ ->]. destruct Ef as (_ & _ & _ & _ & Ef & _). exact (Ef A1 A2).
    + destruct R as [_ ->]. destruct Ef as [(Hb & _ & _ & Ef & _)|(_ & Ef & _)]; [|rewrite Ef; apply warm_none].
      destruct Hb as [Hb|Hb]; [rewrite (Ef Hb); apply warm_none|]. exfalso. apply N1. rewrite Hb. cbn. tauto.
    + destruct R as [_ ->]. destruct Ef as [_ Ef]. apply Ef. intros ->. apply N1. cbn. tauto.
Qed.
(** return data changes only through calls and creations *)
Theorem return_data_kept v w rv code m si op so w' : at_op g v code m si op -> steps_to g v w rv code m si so w' ->
  ~ In op asking -> so_step so = STEP_RUNNING -> so_last so = si_ret si.
Proof.
  intros Ho St N2 Hr. pose proof (step_checks v w rv code m si op so w' Ho St) as X. destruct (checks m rv (zlen (si_stack si)) op) as [e'|].
  - destruct X as [[Xs _ _ _ _ _ _ _ _] _]. congruence.
  - assert (A1 : is_asking op = false). { unfold is_asking. apply not_true_is_false. intros A. apply existsb_exists in A. destruct A as (x & A & B). apply Z.eqb_eq in B. subst. auto. }
    destruct X as (i' & o & Ei' & R & _ & Ef). destruct o as [f'|h d f'|e' f']; cbn [one_result effect] in *.
    + destruct R as [-> _]. destruct Ef as (_ & _ & Ef & _). exact (Ef A1).
    + destruct R as [-> _]. cbn in Hr. destruct h; discriminate.
    + destruct R as [[Rs _ _ _ _ _ _ _ _] _]. congruence.
Qed.
(** the program counter moves to the next instruction or to a jump destination *)
Theorem pc_after v w rv code m si op so w' : at_op g v code m si op -> steps_to g v w rv code m si so w' -> so_step so = STEP_RUNNING ->
  so_pc so = si_pc si + 1 + push_len op \/ (In op [0x56; 0x57] /\ jumpdest code (so_pc so)).
Proof.
  intros Ho St Hr. pose proof (step_checks v w rv code m si op so w' Ho St) as X. destruct (checks m rv (zlen (si_stack si)) op) as [e'|].
  - destruct X as [[Xs _ _ _ _ _ _ _ _] _]. congruence.
  - destruct X as (i' & o & Ei' & R & _ & Ef). destruct o as [f'|h d f'|e' f']; cbn [one_result effect] in *.
    + destruct R as [-> _]. destruct Ef as (_ & [Ef|[Ef1 Ef2]] & _); [left; exact Ef|right]. split; [exact Ef1|]. apply is_dest_spec. exact Ef2.
    + destruct R as [-> _]. cbn in Hr. destruct h; discriminate.
    + destruct R as [[Rs _ _ _ _ _ _ _ _] _]. congruence.
Qed.
End Api.
