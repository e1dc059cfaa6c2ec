(** Consequences about effects, refunds, pointers and options, in the form in which the property files state them. *)
From Verif Require Import Base Host Memory SpecEvm SpecTrace SpecVm Opcodes Interp Vm SpecStep MemFacts SpecFacts VmFacts StepFacts Client ClientFacts
  SpecHost SpecCause GoAdapter OpFacts OpFacts2 OpFacts3 OpFacts4 ApiFacts RunFacts SpecTop PropFacts PropFacts2 PropFacts3 PropFacts8 PropFacts9 Toy.
From Coq Require Import Lia ZArith List Bool String.
Import ListNotations.
Local Open Scope list_scope.

(** ** Effects *)
Section Misc.
Context {W : Type}.
Variable g : setting W.
Hypothesis Hg : setting_ok g.
Notation hst := (g_host g).
Notation eok := (exec_ok (g_code_of g)).

Theorem cheap_sstore v w rv code m si so w' : at_op g v code m si 0x55 -> steps_to g v w rv code m si so w' -> msg_gas m <= 2300 ->
  so_step so = STEP_FAILED /\ w' = w.
Proof.
  intros Ho St Hgas. pose proof (step_checks g Hg v w rv code m si 0x55 so w' Ho St) as X.
  destruct (checks m rv (zlen (si_stack si)) 0x55) as [e|] eqn:Ec.
  - destruct X as [[F _ _ _ _ _ _ _ _] ->]. auto.
  - destruct X as (i & o & Ei & R & Eo & _). cbn in Ei. injection Ei as <-.
    destruct (rev (si_stack si)) as [|k [|x rest]] eqn:Es.
    1,2: exfalso; revert Ec; unfold checks; rewrite <- (rev_involutive (si_stack si)), Es; cbn -[rev_ge static];
      repeat match goal with |- context [if ?c then _ else _] => destruct c end; discriminate.
    assert (E : SpecEvm.exec hst (nested g) (g_keccak g) m rv code (is_dest code) 0x55 (with_gas (msg_gas m - 0) (frame_in m w si)) =
      Fail OutOfGas (with_gas (msg_gas m - 0) (frame_in m w si))).
    { change (i_sstore hst m rv (with_gas (msg_gas m - 0) (frame_in m w si)) = Fail OutOfGas (with_gas (msg_gas m - 0) (frame_in m w si))).
      unfold i_sstore. cbn [with_gas frame_in f_stack f_gas]. rewrite Es. destruct (Z.leb_spec (msg_gas m - 0) 2300); [reflexivity|lia]. }
    cbn [in_fee] in Eo. rewrite E in Eo. subst o. cbn [one_result] in R. destruct R as [[F _ _ _ _ _ _ _ _] ->]. auto.
Qed.

(** ** Refunds of unsuccessful executions: the counter before the last instruction *)
Theorem unsuccessful_refund v w rv code m : reach g v -> eok code m ->
  exists n so w1 r w' v', observed g v w rv code m n so w1 /\ so_step so = STEP_RUNNING /\ Execute g v w rv code m = Ok (r, w', v') /\
    (cr_status r <> EVMC_SUCCESS -> cr_status r <> EVMC_REVERT -> cr_gas_refund r = so_refund so).
Proof.
  intros Hv He. destruct (run_cause g Hg v w rv code m Hv He) as (n & so & w1 & so' & r & w' & v' & A1 & A2 & A3 & A4 & A5 & A6 & A7 & A8 & A9 & A10 & A11 & A12 & A13).
  exists n, so, w1, r, w', v'. split; [exact A1|]. split; [exact A2|]. split; [exact A4|]. intros H1 H2.
  cbn in A10. destruct A10 as [A|[A|[A|[A|A]]]].
  - exfalso. apply H1, A12. left. symmetry. exact A.
  - exfalso. apply H1, A12. right. symmetry. exact A.
  - exfalso. apply H2, A11. symmetry. exact A.
  - apply A13. symmetry. exact A.
  - contradiction.
Qed.

(** ** Options *)
(** the rest of the VM *)
Definition same_state (v v' : vm) : Prop :=
  v_infos v' = v_infos v /\ v_hashes v' = v_hashes v /\ v_log v' = v_log v /\ v_prof v' = v_prof v /\ v_profx v' = v_profx v /\
  v_time v' = v_time v /\ v_acq v' = v_acq v.
Definition the_options : list (string * (vm -> bool)) :=
  [("logging", v_logging); ("analysis_cache", v_analysis); ("sha3_cache", v_sha3); ("profiling", v_profiling); ("profiling_external", v_profext)]%string.
Lemma option_set v name on b : In (name, on) the_options ->
  exists v', set_option name (if b : bool then "true" else "false")%string v = (OPTION_SUCCESS, v') /\ on v' = b /\ same_state v v' /\
    forall name2 on2, In (name2, on2) the_options -> name2 <> name -> on2 v' = on2 v.
Proof.
  intros Hin. exists (snd (set_option name (if b then "true" else "false")%string v)).
  cbn [In the_options] in Hin.
  destruct Hin as [E|[E|[E|[E|[E|[]]]]]]; injection E as <- <-; destruct b; (split; [reflexivity|]; split; [reflexivity|]; split; [repeat split|]);
    intros name2 on2 [E|[E|[E|[E|[E|[]]]]]] Hn; injection E as <- <-; try reflexivity; exfalso; apply Hn; reflexivity.
Qed.
Lemma option_bad_value v name on value : In (name, on) the_options -> value <> "true"%string -> value <> "false"%string ->
  set_option name value v = (OPTION_INVALID_VALUE, v).
Proof.
  intros Hin H1 H2. apply String.eqb_neq in H1, H2.
  cbn [In the_options] in Hin. destruct Hin as [E|[E|[E|[E|[E|[]]]]]]; injection E as <- <-;
    unfold set_option, on_off_options, set_option_in; cbn [String.eqb Ascii.eqb Bool.eqb]; rewrite H1, H2; reflexivity.
Qed.
Lemma option_bad_name v name value : ~ In name (map fst the_options) -> set_option name value v = (OPTION_INVALID_NAME, v).
Proof.
  intros Hn. unfold set_option. cbn [map fst the_options In] in Hn.
  assert (G : forall n, name <> n -> String.eqb name n = false) by (intros; apply String.eqb_neq; assumption).
  unfold on_off_options. cbn [set_option_in]. rewrite !G by (intros ->; apply Hn; tauto). reflexivity.
Qed.
End Misc.

(** ** Pointers *)
Lemma ptr_ok m p : p <= mem_size m -> mem_ptr true m p = mem_ptr false m p.
Proof. intros. unfold mem_ptr. cbn. destruct (Z.ltb_spec (mem_size m) p); [lia|reflexivity]. Qed.
Lemma grown_enough mem off n : mem_ok mem -> 0 < n -> 0 <= off -> off + n < 2 ^ 62 ->
  exists mem', mem_grow mem off n = Ok mem' /\ mem_ok mem' /\ off + n <= mem_size mem' /\ zlen mem <= zlen mem'.
Proof.
  intros Hm Hn Ho Hs. destruct (grow_exact mem off n Hm) as (mem' & E & Hm' & [Hz _]); [lia|auto|].
  exists mem'. split; [exact E|]. split; [exact Hm'|]. unfold mem_size. rewrite Hz. unfold expand.
  destruct (Z.eqb_spec n 0); [lia|]. unfold words. pose proof (Z.div_mod (off + n + 31) 32 ltac:(lia)). pose proof (Z.mod_pos_bound (off + n + 31) 32). lia.
Qed.
Lemma write_size m p bs m' : mem_write m p bs = Ok m' -> 0 <= p -> mem_size m' = mem_size m.
Proof.
  unfold mem_write. destruct bs as [|b bs]; [intros [= <-]; reflexivity|]. destruct (Z.leb_spec (p + zlen (b :: bs)) (mem_size m)); [|discriminate].
  intros [= <-] Hp. unfold mem_size. apply splice_zlen; assumption.
Qed.
Theorem span_strict mem off n : mem_ok mem -> 0 < n -> 0 <= off -> off + n < 2 ^ 62 ->
  mem_get_span true mem off n = mem_get_span false mem off n /\ mem_write_to true mem n off = mem_write_to false mem n off.
Proof.
  intros Hm Hn Ho Hs. destruct (grown_enough mem off n Hm Hn Ho Hs) as (m' & E & _ & Hz & _).
  unfold mem_get_span, mem_write_to. rewrite E. cbn [rbind]. rewrite ptr_ok by lia. auto.
Qed.
Theorem read_from_strict mem buf off n : mem_ok mem -> 0 <= off ->
  (0 < zlen buf -> off + zlen buf < 2 ^ 62 -> mem_read_from true mem buf off = mem_read_from false mem buf off) /\
  (0 < n -> off + n < 2 ^ 62 -> mem_read_from_with_size true mem buf off n = mem_read_from_with_size false mem buf off n).
Proof.
  intros Hm Ho. split.
  - intros Hn Hs. destruct (grown_enough mem off (zlen buf) Hm Hn Ho Hs) as (m' & E & _ & Hz & _).
    unfold mem_read_from. rewrite E. cbn [rbind]. rewrite ptr_ok by lia. reflexivity.
  - intros Hn Hs. destruct (grown_enough mem off n Hm Hn Ho Hs) as (m' & E & _ & Hz & _).
    unfold mem_read_from_with_size. rewrite E. cbn [rbind]. rewrite ptr_ok by lia. unfold mem_ptr at 1 3. cbn [andb rbind].
    destruct (mem_write m' off _) as [m2| |] eqn:Ew; cbn [rbind]; [|reflexivity..].
    rewrite ptr_ok; [reflexivity|]. rewrite (write_size _ _ _ _ Ew Ho). lia.
Qed.
Theorem copy_strict mem dst src n : mem_ok mem -> 0 < n -> 0 <= dst -> dst + n < 2 ^ 62 -> 0 <= src -> src + n < 2 ^ 62 ->
  mem_copy true mem dst src n = mem_copy false mem dst src n.
Proof.
  intros Hm Hn Hd1 Hd2 Hs1 Hs2. destruct (grown_enough mem src n Hm Hn Hs1 Hs2) as (m1 & E1 & Hm1 & Z1 & _).
  destruct (grown_enough m1 dst n Hm1 Hn Hd1 Hd2) as (m2 & E2 & _ & Z2 & L2).
  unfold mem_copy. rewrite E1. cbn [rbind]. rewrite E2. cbn [rbind]. rewrite !ptr_ok by (unfold mem_size in *; lia). reflexivity.
Qed.
Theorem empty_access mem off : mem_get_span true mem off 0 = (if zlen mem <? off then Undef UB_ptr_range else Ok ([], mem)).
Proof. unfold mem_get_span, mem_grow, mem_ptr, mem_size. cbn. destruct (zlen mem <? off); reflexivity. Qed.

(** Execute on a machine that reports the formation of such pointers *)
Definition StrictExecute {W} (g : setting W) : vm -> W -> revision -> list Z -> message -> res (cresult * W * vm) :=
  exec (g_host g) (g_keccak g) (g_tick g) (g_bufs g) true (g_handler g) (S levels).
(** PUSH1 0 PUSH1 64 RETURN: returns nothing, from beyond the empty memory; and ADD on the empty stack *)
Lemma strict_run : forall n infos,
  exec toy_host (g_keccak (toy_setting [])) (g_tick (toy_setting [])) (g_bufs (toy_setting [])) true (toy_handler []) (S n) (vm_with infos 0 0) toy0 London
    [0x60; 0; 0x60; 64; 0xF3] (toy_msg 100 []) = Undef UB_ptr_range /\
  exec toy_host (g_keccak (toy_setting [])) (g_tick (toy_setting [])) (g_bufs (toy_setting [])) true (toy_handler []) (S n) (vm_with infos 0 0) toy0 London
    [0x50] (toy_msg 100 []) = Undef UB_ptr_range.
Proof. intros. split; vm_compute; reflexivity. Qed.
Theorem strict_refuted :
  StrictExecute (toy_setting []) (vm_new 0 0) toy0 London [0x60; 0; 0x60; 64; 0xF3] (toy_msg 100 []) = Undef UB_ptr_range /\
  StrictExecute (toy_setting []) (vm_new 0 0) toy0 London [0x50] (toy_msg 100 []) = Undef UB_ptr_range /\
  (exists v', Execute (toy_setting []) (vm_new 0 0) toy0 London [0x60; 0; 0x60; 64; 0xF3] (toy_msg 100 []) = Ok (mkRes EVMC_SUCCESS 94 0 [] 0, toy0, v')) /\
  (exists v', Execute (toy_setting []) (vm_new 0 0) toy0 London [0x50] (toy_msg 100 []) = Ok (mkRes EVMC_STACK_UNDERFLOW 0 0 [] 0, toy0, v')).
Proof.
  split; [rewrite vm_new_with; exact (proj1 (strict_run levels _))|]. split; [rewrite vm_new_with; exact (proj2 (strict_run levels _))|].
  assert (T : forall c r, exec_ok (g_code_of (toy_setting [])) c (toy_msg 100 []) -> reference (toy_setting []) toy0 London c (toy_msg 100 []) = (r, toy0) ->
    exists v', Execute (toy_setting []) (vm_new 0 0) toy0 London c (toy_msg 100 []) = Ok (r, toy0, v')).
  { intros c r He Er. destruct (execute_reference (toy_setting []) (toy_ok [] ltac:(constructor) ltac:(vm_compute; discriminate)) (vm_new 0 0) toy0 London c (toy_msg 100 [])
      (reach_new _ 0%nat 0%nat) He) as [v' [E _]]. exists v'. rewrite Er in E. exact E. }
  split; apply T; try (vm_compute; reflexivity); apply toy_exec; try (unfold zlen; cbn; lia); try lia; try constructor; try (unfold is_byte; lia); repeat constructor; unfold is_byte; lia.
Qed.

(** ** Counterexamples *)
Theorem sstore_writes : exists w', fails_with (toy_setting []) (vm_new 0 0) toy0 London [0x55] (toy_msg 2400 []) (toy_in 0 [5; 1] [] []) EVMC_OUT_OF_GAS w' /\
  h_get_storage toy_host toy0 0x11 1 = 7 /\ h_get_storage toy_host w' 0x11 1 = 5.
Proof. exists (mkToy [(0x11, 1, 5)] [(0x11, 1)] [] [] 100 []). split; [toy_bad|]. split; vm_compute; reflexivity. Qed.

Theorem refund_on_failure : exists v1 v2 w1 w2,
  Execute (toy_setting []) (vm_new 0 0) toy0 London [0x60; 0; 0x60; 1; 0x55; 0x60; 0; 0x60; 0; 0xFD] (toy_msg 30000 []) =
    Ok (mkRes EVMC_REVERT 24988 4800 [] 0, w1, v1) /\
  Execute (toy_setting []) (vm_new 0 0) toy0 London [0x60; 0; 0x60; 1; 0x55; 0xFE] (toy_msg 30000 []) =
    Ok (mkRes EVMC_INVALID_INSTRUCTION 0 4800 [] 0, w2, v2).
Proof.
  assert (A : exists v1, Execute (toy_setting []) (vm_new 0 0) toy0 London [0x60; 0; 0x60; 1; 0x55; 0x60; 0; 0x60; 0; 0xFD] (toy_msg 30000 []) =
    Ok (mkRes EVMC_REVERT 24988 4800 [] 0, mkToy [(0x11, 1, 0)] [(0x11, 1)] [] [] 100 [], v1) /\ reach (toy_setting []) v1) by toy_run.
  assert (B : exists v1, Execute (toy_setting []) (vm_new 0 0) toy0 London [0x60; 0; 0x60; 1; 0x55; 0xFE] (toy_msg 30000 []) =
    Ok (mkRes EVMC_INVALID_INSTRUCTION 0 4800 [] 0, mkToy [(0x11, 1, 0)] [(0x11, 1)] [] [] 100 [], v1) /\ reach (toy_setting []) v1) by toy_run.
  destruct A as (v1 & A & _), B as (v2 & B & _). exists v1, v2. eauto.
Qed.
Theorem refund_leaks : exists v' w',
  Execute (toy_setting [0x60; 0; 0x60; 1; 0x55; 0x60; 0; 0x60; 0; 0xFD]) (vm_new 0 0) toy0 London
    [0x60; 0; 0x60; 0; 0x60; 0; 0x60; 0; 0x60; 0; 0x60; 0x77; 0x61; 0x75; 0x30; 0xF1; 0x00] (toy_msg 50000 []) = Ok (mkRes EVMC_SUCCESS 42367 4800 [] 0, w', v') /\
  h_get_storage toy_host w' 0x77 1 = h_get_storage toy_host toy0 0x77 1.
Proof.
  assert (A : exists v1, Execute (toy_setting [0x60; 0; 0x60; 1; 0x55; 0x60; 0; 0x60; 0; 0xFD]) (vm_new 0 0) toy0 London
    [0x60; 0; 0x60; 0; 0x60; 0; 0x60; 0; 0x60; 0; 0x60; 0x77; 0x61; 0x75; 0x30; 0xF1; 0x00] (toy_msg 50000 []) = Ok (mkRes EVMC_SUCCESS 42367 4800 [] 0, mkToy [] [] [0x77] [] 100 [], v1) /\
    reach (toy_setting [0x60; 0; 0x60; 1; 0x55; 0x60; 0; 0x60; 0; 0xFD]) v1) by toy_run.
  destruct A as (v1 & A & _). exists v1. eexists. split; [exact A|]. vm_compute. reflexivity.
Qed.
Theorem go_vm_error : exists w' v', Run (toy_setting []) (vm_new 0 0) toy0 (mkParams 4 false 0 100000 0x11 0x22 [] 0 None [0x62; 0; 0xC0; 1; 0x60; 0; 0x60; 0; 0xF0]) =
  Ok (inr (ErrUnexpected EVMC_FAILURE), w', v').
Proof.
  set (p := mkParams 4 false 0 100000 0x11 0x22 [] 0 None [0x62; 0; 0xC0; 1; 0x60; 0; 0x60; 0; 0xF0]).
  assert (He : exec_ok (g_code_of (toy_setting [])) (p_code p) (message_of p)).
  { split; [|cbn; lia| |unfold zlen; cbn; lia|discriminate]; cbn [p_code p message_of p_static p_depth p_gas p_recipient p_sender p_input p_value p_code_hash].
    - split; cbn; try (unfold is_addr, is_word; lia); try constructor; unfold zlen; cbn; lia.
    - repeat constructor; unfold is_byte; lia. }
  destruct (execute_reference (toy_setting []) (toy_ok [] ltac:(constructor) ltac:(vm_compute; discriminate)) (vm_new 0 0) toy0 Shanghai (p_code p) (message_of p)
      (reach_new _ 0%nat 0%nat) He) as [v' [E _]].
  assert (R : reference (toy_setting []) toy0 Shanghai (p_code p) (message_of p) = (mkRes EVMC_FAILURE 0 0 [] 0, toy0)) by (vm_compute; reflexivity).
  rewrite R in E. exists toy0, v'. unfold Run. change (5 <? p_revision p) with false. change (toEvmcRevision (p_revision p)) with (Some Shanghai). cbv beta iota.
  cbn [fst snd] in E. rewrite E. reflexivity.
Qed.
