(** From the simulation theorems to statements about the API. *)
From Verif Require Import Base Host Memory Opcodes Interp SpecEvm SpecTrace SpecVm MemFacts JumpFacts SimBase SpecFacts Sim
  Lru LruFacts LruConcFacts Sha3 MemoFacts Profiler ProfilerFacts Vm VmFacts SpecStep StepFacts Client.
From Coq Require Import Lia ZArith List Bool.

Lemma levels_ok : Z.of_nat levels = 1024. Proof. unfold levels. rewrite Z2Nat.id; lia. Qed.
Global Opaque levels.

Section Facts.
Context {W : Type}.
Variable g : setting W.
Hypothesis Hg : setting_ok g.
Notation ok := (vm_ok (g_keccak g) (g_code_of g)).
Notation H := (g_host g).
Notation keccak := (g_keccak g).

Lemma set_flag_ok fl b v : ok v -> ok (set_flag fl b v).
Proof. intros [V1 V2 V3 V4]. split; assumption. Qed.
Lemma set_option_ok name value v : ok v -> ok (snd (set_option name value v)).
Proof.
  intros Hv. unfold set_option. generalize on_off_options. intros opts. induction opts as [|[n fl] opts IH]; cbn [set_option_in]; [exact Hv|].
  destruct (String.eqb name n); [|exact IH]. destruct (String.eqb value _); [apply set_flag_ok; exact Hv|].
  destruct (String.eqb value _); [apply set_flag_ok; exact Hv|exact Hv].
Qed.
Lemma reset_ok v : ok v -> ok (reset_profiler v).
Proof.
  intros [V1 V2 V3 V4]. unfold reset_profiler. destruct (v_profiling v); [split; try assumption; reflexivity|].
  destruct (v_profext v); split; try assumption; reflexivity.
Qed.

Lemma execute_ok v w rv code m : ok v -> exec_ok (g_code_of g) code m ->
  exists v', Execute g v w rv code m = Ok (fst (reference g w rv code m), snd (reference g w rv code m), v') /\ ok v' /\
    (0 <= msg_gas m -> call_ok m (fst (reference g w rv code m))).
Proof.
  intros Hv He. destruct Hg as [G1 G2 G3 G4].
  apply (exec_sim_vm H keccak (g_tick g) (g_bufs g) (g_handler g) (g_code_of g) G1 G2 G3 G4 (S levels) v w rv code m Hv He).
  pose proof (mok_depth _ (eok_msg _ _ _ He)). pose proof levels_ok. lia.
Qed.

Lemma nested_ok d : 0 <= d <= 1024 -> calls_ok (nested g) d /\
  (forall w v m, ok v -> msg_ok m -> 0 <= msg_gas m -> msg_depth m = d + 1 ->
     exists v', vm_call H keccak (g_tick g) (g_bufs g) false (g_handler g) levels w v m =
       Ok (fst (nested g w m), snd (nested g w m), v') /\ ok v').
Proof.
  intros Hd. destruct Hg as [G1 G2 G3 G4].
  apply (vm_call_sim H keccak (g_tick g) (g_bufs g) (g_handler g) (g_code_of g) G1 G2 G3 G4 levels d Hd). pose proof levels_ok. lia.
Qed.
Lemma depth_ok code m : exec_ok (g_code_of g) code m -> 0 <= msg_depth m <= 1024.
Proof. intros He. pose proof (mok_depth _ (eok_msg _ _ _ He)). pose proof (eok_depth _ _ _ He). lia. Qed.

(** the reference semantics of the running message *)
Definition ref_step (m : message) (rv : revision) (code : list Z) : frame W -> outcome W :=
  step H (nested g) keccak m rv code (is_dest code).
Definition ref_run (m : message) (rv : revision) (code : list Z) : nat -> frame W -> outcome W :=
  run_for H (nested g) keccak m rv code (is_dest code).

Lemma reference_eq w rv code m : reference g w rv code m =
  result_of (ref_run m rv code (S (Z.to_nat (msg_gas m))) (initial m w)).
Proof. reflexivity. Qed.

Lemma stepn_ok v w rv code m si : ok v -> exec_ok (g_code_of g) code m -> step_ok code m si -> si_status si = STEP_RUNNING ->
  exists so w' v', StepN g v w rv code m si = Ok (so, w', v') /\ ok v' /\
    step_shows H (nested g) keccak m rv code (Z.to_nat (si_steps si)) si (frame_in m w si) so w' /\
    (forall f', ref_run m rv code (Z.to_nat (si_steps si)) (frame_in m w si) = Next f' -> still_ok code f' /\ f_gas f' <= msg_gas m).
Proof.
  intros Hv He Hs Hr. destruct Hg as [G1 G2 G3 G4]. destruct (nested_ok (msg_depth m) (depth_ok _ _ He)) as [C1 C2].
  apply (step_n_sim H keccak (g_bufs g) (g_code_of g) G1 G2 G3 _ (nested g) rv code m He C1 C2 v w si (frame_in m w si) Hv Hs Hr).
  split; reflexivity.
Qed.
Lemma idle_ok v w rv code m si : ok v -> exec_ok (g_code_of g) code m -> step_ok code m si ->
  si_status si <> STEP_RUNNING \/ si_steps si <= 0 -> exists so v', StepN g v w rv code m si = Ok (so, w, v') /\ ok v'.
Proof.
  intros Hv He Hs Hi. destruct Hg as [G1 G2 G3 G4].
  destruct (step_n_idle H keccak (g_bufs g) (g_code_of g) G3
    (vm_call H keccak (g_tick g) (g_bufs g) false (g_handler g) levels) rv code m He v w si Hv Hs Hi) as (v' & E & Hv').
  eexists _, v'. split; [exact E|exact Hv'].
Qed.

Theorem reach_ok v : reach g v -> ok v.
Proof.
  induction 1 as [t a|v w rv code m r w' v' Hr IH He E|v w rv code m si so w' v' Hr IH He Hs E|v name value Hr IH|v Hr IH].
  - apply vm_new_ok.
  - destruct (execute_ok v w rv code m IH He) as (v2 & E2 & Hv2 & _). rewrite E in E2. injection E2 as _ _ ->. exact Hv2.
  - destruct (si_status si) eqn:Est; try (destruct (idle_ok v w rv code m si IH He Hs ltac:(left; rewrite Est; discriminate)) as (so2 & v2 & E2 & Hv2);
      rewrite E in E2; injection E2 as _ _ ->; exact Hv2).
    destruct (stepn_ok v w rv code m si IH He Hs Est) as (so2 & w2 & v2 & E2 & Hv2 & _). rewrite E in E2. injection E2 as _ _ ->. exact Hv2.
  - apply set_option_ok, IH.
  - apply reset_ok, IH.
Qed.

(** ** Execute *)
Theorem execute_reference v w rv code m : reach g v -> exec_ok (g_code_of g) code m ->
  exists v', Execute g v w rv code m = Ok (fst (reference g w rv code m), snd (reference g w rv code m), v') /\ reach g v'.
Proof.
  intros Hr He. destruct (execute_ok v w rv code m (reach_ok v Hr) He) as (v' & E & _ & _). exists v'. split; [exact E|].
  eapply reach_execute; eassumption.
Qed.
Theorem stepn_reference v w rv code m si : reach g v -> exec_ok (g_code_of g) code m -> step_ok code m si -> si_status si = STEP_RUNNING ->
  exists so w' v', StepN g v w rv code m si = Ok (so, w', v') /\ reach g v' /\
    step_shows H (nested g) keccak m rv code (Z.to_nat (si_steps si)) si (frame_in m w si) so w' /\
    (forall f', ref_run m rv code (Z.to_nat (si_steps si)) (frame_in m w si) = Next f' -> still_ok code f' /\ f_gas f' <= msg_gas m).
Proof.
  intros Hr He Hs Hst. destruct (stepn_ok v w rv code m si (reach_ok v Hr) He Hs Hst) as (so & w' & v' & E & _ & X).
  exists so, w', v'. split; [exact E|]. split; [eapply reach_step; eassumption|exact X].
Qed.

(** ** One instruction *)
Lemma whole_words_eq mem : whole_words mem = read_bytes (data_at mem) 0 (32 * words (zlen mem)).
Proof.
  pose proof (words_bound (zlen mem)). pose proof (words_nonneg (zlen mem) (zlen_nonneg mem)).
  apply list_data_ext; unfold whole_words.
  - rewrite zlen_app, zlen_zeros, read_bytes_zlen. lia.
  - intros i. rewrite zlen_app, zlen_zeros. intros Hi. rewrite read_bytes_at by lia. rewrite Z.add_0_l, data_at_app by lia.
    destruct (i <? zlen mem) eqn:E; [reflexivity|]. apply Z.ltb_ge in E. rewrite data_at_zeros, data_at_out by lia. reflexivity.
Qed.

Definition one_result (rv : revision) (si : step_in) (o : outcome W) (so : step_out) (w' : W) : Prop :=
  match o with
  | Next f' => so = shown STEP_RUNNING EVMC_FAILURE rv f' (f_ret f') /\ w' = f_world f'
  | Halt h data f' => so = shown (step_halt h) (halt_status h) rv f' data /\ w' = f_world f'
  | Fail e f' => failed rv si (failure_status e) so /\ w' = f_world f'
  end.
Theorem one_step v w rv code m si op : at_op g v code m si op ->
  exists so w' v', StepN g v w rv code m si = Ok (so, w', v') /\ reach g v' /\
    one_result rv si (ref_step m rv code (frame_in m w si)) so w' /\
    (forall f', ref_step m rv code (frame_in m w si) = Next f' -> still_ok code f' /\ f_gas f' <= msg_gas m).
Proof.
  intros [A1 A2 A3 A4 A5 A6]. destruct (stepn_reference v w rv code m si A1 A2 A3 A4) as (so & w' & v' & E & Hv & HS & HN).
  exists so, w', v'. split; [exact E|]. split; [exact Hv|].
  rewrite A5 in *. change (Z.to_nat 1) with 1%nat in *. unfold ref_run in HN. cbn [run_for] in HN.
  change (step H (nested g) keccak m rv code (is_dest code) (frame_in m w si)) with (ref_step m rv code (frame_in m w si)) in HN.
  unfold step_shows in HS. cbn [run_for] in HS.
  change (step H (nested g) keccak m rv code (is_dest code) (frame_in m w si)) with (ref_step m rv code (frame_in m w si)) in HS.
  split; [|intros f' Ef; apply HN; rewrite Ef; reflexivity].
  destruct (ref_step m rv code (frame_in m w si)) as [f'|h data f'|e f'] eqn:Es; cbn [one_result].
  - exact HS.
  - exact HS.
  - destruct HS as (k & f1 & K1 & K2 & K3 & K4 & K5 & K6 & K7 & K8 & K9 & K10 & K11 & K12 & K13 & K14).
    assert (k = 0%nat) as -> by lia. cbn [run_for] in K2. injection K2 as <-.
    split; [|exact K12]. split; auto. rewrite K11. cbn [frame_in f_mem f_active]. symmetry. apply whole_words_eq.
Qed.

(** the checks that precede every instruction *)
Theorem step_checked m rv code w si i op : code_at code (si_pc si) = op -> instruction op = Some i ->
  rev_ge rv (in_since i) = true -> (in_stateful i && static m = false) ->
  in_args i <= zlen (si_stack si) -> zlen (si_stack si) - in_args i + in_results i <= 1024 -> in_fee i <= msg_gas m ->
  ref_step m rv code (frame_in m w si) =
    SpecEvm.exec H (nested g) keccak m rv code (is_dest code) op (with_gas (msg_gas m - in_fee i) (frame_in m w si)).
Proof.
  intros Hc Hi Hr Hst Ha Ho Hf. unfold ref_step, step. change (f_pc (frame_in m w si)) with (si_pc si). rewrite Hc, Hi, Hr, Hst. cbn [negb].
  change (f_stack (frame_in m w si)) with (rev (si_stack si)).
  assert (El : zlen (rev (si_stack si)) = zlen (si_stack si)) by (unfold zlen; rewrite rev_length; reflexivity).
  rewrite El. destruct (Z.ltb_spec (zlen (si_stack si)) (in_args i)); [lia|].
  destruct (Z.ltb_spec 1024 (zlen (si_stack si) - in_args i + in_results i)); [lia|].
  unfold charge. change (f_gas (frame_in m w si)) with (msg_gas m). destruct (Z.ltb_spec (msg_gas m) (in_fee i)); [lia|reflexivity].
Qed.
End Facts.
