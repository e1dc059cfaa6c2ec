(** Consequences about code, dispatch, status and stack limits, in the form in which the property files state them. *)
From Verif Require Import Base Host SpecEvm SpecTrace SpecVm Opcodes Interp Vm SpecStep MemFacts JumpFacts ArithFacts SpecFacts VmFacts StepFacts Client ClientFacts
  SpecHost FrameFacts OpFacts OpFacts2 OpFacts3 ApiFacts StaticFacts RunFacts SpecTop RefFacts PropFacts.
From Coq Require Import Lia ZArith List Bool.
Import ListNotations.

(** bytes of a truncated immediate *)
Lemma be_app a b : be (a ++ b) = be a * 256 ^ zlen b + be b.
Proof.
  unfold be. rewrite fold_left_app.
  assert (G : forall l acc, fold_left (fun acc b => 256 * acc + b) l acc = acc * 256 ^ zlen l + fold_left (fun acc b => 256 * acc + b) l 0).
  { induction l as [|x l IH]; intros acc; [change (zlen (@nil Z)) with 0; cbn; lia|]. cbn [fold_left]. rewrite IH, (IH (256 * 0 + x)).
    rewrite zlen_cons, Z.pow_add_r by (pose proof (zlen_nonneg l); lia). change (256 ^ 1) with 256. ring. }
  apply G.
Qed.
Lemma be_zeros n : be (zeros n) = 0.
Proof. unfold zeros. induction (Z.to_nat n) as [|k IH]; [reflexivity|]. replace (repeat 0 (S k)) with (repeat 0 k ++ [0]).
  - rewrite be_app, IH. cbn. reflexivity.
  - change [0] with (repeat 0 1). rewrite <- repeat_app. f_equal. lia.
Qed.
Lemma be_truncated code p n : 0 <= p -> 0 <= n -> zlen code <= p + n -> p <= zlen code ->
  be (data_bytes code p n) = be (skipn (Z.to_nat p) code) * 256 ^ (p + n - zlen code).
Proof.
  intros Hp Hn Hl Hp'. rewrite data_bytes_pad by assumption.
  assert (E : zlen (skipn (Z.to_nat p) code) = zlen code - p) by (rewrite zlen_skipn; lia). rewrite E.
  replace (Z.min (zlen code - p) n) with (zlen code - p) by lia. rewrite <- E at 1. unfold zlen at 1. rewrite Nat2Z.id, firstn_all.
  rewrite be_app, be_zeros, zlen_zeros, Z.add_0_r. f_equal. f_equal. lia.
Qed.

(** the analysis and the dispatch table *)
Lemma analysis_exact code : zlen code < 2 ^ 63 ->
  exists t, calc_valid_jump_targets code = Ok t /\ zlen t = zlen code /\
    forall d, 0 <= d < zlen code -> (data_at t d = 1 <-> jumpdest code d) /\ (data_at t d = 0 <-> ~ jumpdest code d).
Proof.
  intros Hl. destruct (calc_valid_jump_targets_spec code Hl) as (t & E & L & K). exists t. split; [exact E|]. split; [exact L|].
  intros d Hd. destruct (K d Hd) as [[-> J]|[-> J]]; split; split; intros; try assumption; try reflexivity; try discriminate; contradiction.
Qed.
Lemma table_complete : length dispatch_table = 256%nat /\
  forall b, is_byte b -> exists o, znth dispatch_table b = Some o /\ (assigned b = true -> opcode_value o = b) /\ (assigned b = false -> o = INVALID).
Proof.
  split; [reflexivity|]. intros b Hb.
  assert (C : forallb (fun n => match znth dispatch_table (Z.of_nat n) with
     | Some o => if assigned (Z.of_nat n) then opcode_value o =? Z.of_nat n else match o with INVALID => true | _ => false end
     | None => false end) (seq 0 256) = true) by (vm_compute; reflexivity).
  rewrite forallb_forall in C. specialize (C (Z.to_nat b)). unfold is_byte in Hb. rewrite Z2Nat.id in C by lia.
  assert (I : In (Z.to_nat b) (seq 0 256)) by (apply in_seq; lia). specialize (C I).
  destruct (znth dispatch_table b) as [o|]; [|discriminate]. exists o. split; [reflexivity|].
  destruct (assigned b).
  - split; [intros _; apply Z.eqb_eq; exact C|discriminate].
  - split; [discriminate|]. intros _. destruct o; try discriminate. reflexivity.
Qed.
(** deciding examples *)
Lemma is_dest_spec_or code d : if is_dest code d then jumpdest code d else ~ jumpdest code d.
Proof. destruct (is_dest code d) eqn:E; [apply is_dest_spec; exact E|]. intros J. apply is_dest_spec in J. congruence. Qed.

Section Code.
Context {W : Type}.
Variable g : setting W.
Hypothesis Hg : setting_ok g.
Notation eok := (exec_ok (g_code_of g)).
Notation hst := (g_host g).

Theorem executed_start v w rv code m n so w' : reach g v -> eok code m -> observed g v w rv code m n so w' -> so_step so = STEP_RUNNING ->
  instr_start code (so_pc so).
Proof. intros Hv He Ho Hr. apply (observed_spent g Hg v w rv code m n so w' Hv He Ho Hr). Qed.

(** the end of a run, from the last state shown by stepping *)
Lemma run_end v w rv code m n so w' : reach g v -> eok code m -> observed g v w rv code m n so w' -> so_step so = STEP_RUNNING ->
  exists f, still_ok code f /\ so = shown STEP_RUNNING EVMC_FAILURE rv f (f_ret f) /\ w' = f_world f /\
    ref_run g m rv code n (initial m w) = Next f /\
    (forall o, ref_step g m rv code f = o -> (forall f', o <> Next f') -> reference g w rv code m = result_of o /\
       ref_run g m rv code (S n) (initial m w) = o).
Proof.
  intros Hv He Ho Hr. destruct (observed_running g Hg v w rv code m n so w' Hv He Ho Hr) as (f & E & -> & ->).
  exists f. split; [eapply (reached_still g Hg); eassumption|]. split; [reflexivity|]. split; [reflexivity|]. split; [exact E|].
  intros o Eo Hn. destruct (observed_spent g Hg v w rv code m n _ _ Hv He Ho Hr) as [A [B _]]. cbn [shown so_gas] in A, B.
  assert (E1 : ref_run g m rv code (S n) (initial m w) = o) by (rewrite (run_succ g), E; exact Eo).
  split; [|exact E1]. rewrite (reference_eq g). f_equal. unfold ref_run in *. eapply for_more; [exact E1|exact Hn|].
  destruct n as [|n]; [lia|]. assert (0 < S n)%nat by lia. specialize (B H). lia.
Qed.

Theorem run_off_end v w rv code m n so w' : reach g v -> eok code m -> observed g v w rv code m n so w' -> so_step so = STEP_RUNNING ->
  zlen code <= so_pc so -> 0 <= so_gas so ->
  exists v', Execute g v w rv code m = Ok (mkRes EVMC_SUCCESS (so_gas so) (so_refund so) [] 0, w', v').
Proof.
  intros Hv He Ho Hr Hpc Hgas. destruct (run_end v w rv code m n so w' Hv He Ho Hr) as (f & Hs & -> & -> & E & K).
  cbn [shown so_pc so_gas so_refund] in *. destruct (execute_reference g Hg v w rv code m Hv He) as [v' [Ex _]]. exists v'. rewrite Ex.
  assert (S1 : ref_step g m rv code f = Halt Stopped [] (with_pc (f_pc f + 1) (with_gas (f_gas f - 0) f))).
  { unfold ref_step, step, code_at. rewrite data_at_out by lia. change (instruction 0) with (Some (mkInstr 0 0 0 Istanbul false)).
    destruct Hs as (_ & _ & _ & Hh & _). cbn [in_since in_stateful in_args in_results in_fee]. rewrite istanbul. cbn [negb andb].
    destruct (Z.ltb_spec (zlen (f_stack f)) 0); [pose proof (zlen_nonneg (f_stack f)); lia|].
    destruct (Z.ltb_spec 1024 (zlen (f_stack f) - 0 + 0)); [lia|]. unfold charge. destruct (Z.ltb_spec (f_gas f) 0); [lia|]. reflexivity. }
  destruct (K _ S1 ltac:(discriminate)) as [-> _]. cbn [result_of fst snd halt_status with_pc with_gas f_gas f_refund f_world]. rewrite Z.sub_0_r. reflexivity.
Qed.

Theorem stop_in_padding v w rv code m si : reach g v -> eok code m -> step_ok code m si -> si_status si = STEP_RUNNING -> si_steps si = 1 ->
  zlen code <= si_pc si -> 0 <= msg_gas m ->
  steps_to g v w rv code m si (ended STEP_STOPPED EVMC_SUCCESS rv (si_pc si + 1) (msg_gas m) (si_refunds si) (si_stack si) (whole_words (si_mem si)) []) w.
Proof.
  intros. apply (op_stop g Hg); [|assumption]. split; try assumption. unfold code_at. apply data_at_out. assumption.
Qed.

Theorem truncated_push v w rv code m si n : 1 <= n <= 32 -> at_op g v code m si (0x5F + n) -> zlen code <= si_pc si + 1 + n ->
  zlen (si_stack si) < 1024 -> 3 <= msg_gas m ->
  steps_to g v w rv code m si (running rv (si_pc si + 1 + n) (msg_gas m - 3) (si_refunds si)
    (si_stack si ++ [be (skipn (Z.to_nat (si_pc si + 1)) code) * 256 ^ (si_pc si + 1 + n - zlen code)]) (whole_words (si_mem si)) (si_ret si)) w.
Proof.
  intros Hn Ho Hl Hh Hm. pose proof (sk_pc _ _ _ (at_args _ _ _ _ _ _ Ho)) as Hpc.
  assert (si_pc si < zlen code).
  { destruct (Z_lt_dec (si_pc si) (zlen code)) as [D|D]; [exact D|exfalso]. pose proof (at_code _ _ _ _ _ _ Ho) as C.
    unfold code_at in C. rewrite data_at_out in C by lia. lia. }
  rewrite <- be_truncated by lia. apply (op_push g Hg); assumption.
Qed.

Theorem undefined_fails v w rv code m si op so w' : at_op g v code m si op -> steps_to g v w rv code m si so w' ->
  (so_status so = EVMC_UNDEFINED_INSTRUCTION <-> exists since, In (op, since) introduced /\ rev_ge rv since = false) /\
  (so_status so = EVMC_UNDEFINED_INSTRUCTION -> failed rv si EVMC_UNDEFINED_INSTRUCTION so /\ w' = w).
Proof.
  intros Ho Hs. split; [eapply (undefined_exactly g Hg); eassumption|].
  intros Hu. pose proof (proj1 (check_status g Hg v w rv code m si op so w' UndefinedInstruction Ho Hs eq_refl) Hu) as C.
  pose proof (step_checks g Hg v w rv code m si op so w' Ho Hs) as X. rewrite C in X. exact X.
Qed.

Theorem invalid_fails v w rv code m si op so w' : at_op g v code m si op -> steps_to g v w rv code m si so w' -> 0 <= msg_gas m ->
  (so_status so = EVMC_INVALID_INSTRUCTION <-> assigned op = false) /\
  (so_status so = EVMC_INVALID_INSTRUCTION -> failed rv si EVMC_INVALID_INSTRUCTION so /\ w' = w).
Proof.
  intros Ho Hs Hm. split; [eapply (invalid_exactly g Hg); eassumption|].
  intros Hu. pose proof (proj1 (check_status g Hg v w rv code m si op so w' InvalidInstruction Ho Hs eq_refl) Hu) as C.
  pose proof (step_checks g Hg v w rv code m si op so w' Ho Hs) as X. rewrite C in X. exact X.
Qed.

Theorem byte_by_byte v w rv code m si op : at_op g v code m si op ->
  exists so w', steps_to g v w rv code m si so w' /\
    one_result rv si (step hst (nested g) (g_keccak g) m rv code (is_dest code) (frame_in m w si)) so w'.
Proof. intros Ho. destruct (one_step g Hg v w rv code m si op Ho) as (so & w' & v' & E & R & O & _). exists so, w'. split; [exists v'; auto|exact O]. Qed.

Theorem status_map v w rv code m : reach g v -> eok code m ->
  exists n so w1 so' r w' v', observed g v w rv code m n so w1 /\ so_step so = STEP_RUNNING /\ observed g v w rv code m (S n) so' w' /\
    Execute g v w rv code m = Ok (r, w', v') /\
    cr_status r = so_status so' /\ cr_gas_left r = so_gas so' /\ cr_gas_refund r = so_refund so' /\ cr_output r = so_output so' /\
    let op := code_at code (so_pc so) in
    match so_step so' with
    | STEP_STOPPED => (op = 0x00 \/ op = 0xFF) /\ cr_status r = EVMC_SUCCESS /\ cr_output r = []
    | STEP_RETURNED => op = 0xF3 /\ cr_status r = EVMC_SUCCESS
    | STEP_REVERTED => op = 0xFD /\ cr_status r = EVMC_REVERT
    | STEP_FAILED => In (cr_status r) [EVMC_FAILURE; EVMC_OUT_OF_GAS; EVMC_INVALID_INSTRUCTION; EVMC_UNDEFINED_INSTRUCTION; EVMC_STACK_OVERFLOW;
        EVMC_STACK_UNDERFLOW; EVMC_BAD_JUMP_DESTINATION; EVMC_INVALID_MEMORY_ACCESS; EVMC_CALL_DEPTH_EXCEEDED; EVMC_STATIC_MODE_VIOLATION] /\
        cr_gas_left r = 0 /\ cr_output r = []
    | _ => False
    end.
Proof.
  intros Hv He.
  pose proof (run_ends g Hg (nested g) m rv code w He (proj1 (nested_ok g Hg (msg_depth m) (depth_ok g code m He)))) as Ends.
  assert (L : exists n f, ref_run g m rv code n (initial m w) = Next f /\ forall f', ref_step g m rv code f <> Next f').
  { fold (ref_run g) in Ends. change (run_for hst (nested g) (g_keccak g) m rv code (is_dest code)) with (ref_run g m rv code) in Ends.
    remember (S (Z.to_nat (msg_gas m))) as N. clear HeqN. induction N as [|N IH].
    - exfalso. apply (Ends (initial m w)). reflexivity.
    - destruct (ref_run g m rv code N (initial m w)) as [f|h d f|e f] eqn:E.
      + exists N, f. split; [exact E|]. intros f' E1. apply (Ends f'). rewrite (run_succ g), E. exact E1.
      + apply IH. discriminate.
      + apply IH. discriminate. }
  destruct L as (n & f & En & Hlast).
  assert (O1 : observed g v w rv code m n (shown STEP_RUNNING EVMC_FAILURE rv f (f_ret f)) (f_world f)).
  { apply (observed_case g Hg); [exact Hv|exact He|]. rewrite En. auto. }
  destruct (run_end v w rv code m n _ _ Hv He O1 eq_refl) as (f0 & Hs & _ & _ & En' & K). rewrite En in En'. injection En' as <-.
  destruct (K _ eq_refl Hlast) as [Er E1].
  destruct (drive_reach g Hg v w rv code m [Z.of_nat (S n)] Hv He) as (so' & w' & v1 & Ed & Sh).
  assert (O2 : observed g v w rv code m (S n) so' w').
  { exists [Z.of_nat (S n)], v1. split; [|exact Ed]. cbn [total]. rewrite Nat2Z.id. lia. }
  cbn [total] in Sh. rewrite Nat2Z.id, Nat.add_0_r, E1 in Sh.
  destruct (execute_reference g Hg v w rv code m Hv He) as [v' [Ex _]]. rewrite Er in Ex.
  exists n, (shown STEP_RUNNING EVMC_FAILURE rv f (f_ret f)), (f_world f), so'.
  cbn [shown so_pc].
  pose proof (ref_step_good g Hg m rv code f He Hs) as Good.
  destruct (ref_step g m rv code f) as [f'|h d f'|e f'] eqn:Es.
  - exfalso. apply (Hlast f'). reflexivity.
  - destruct Sh as [-> ->]. cbn [result_of fst snd] in Ex. exists (mkRes (halt_status h) (f_gas f') (f_refund f') d 0), (f_world f'), v'.
    split; [exact O1|]. split; [reflexivity|]. split; [exact O2|]. split; [exact Ex|].
    cbn [shown cr_status cr_gas_left cr_gas_refund cr_output so_status so_gas so_refund so_output so_step].
    split; [reflexivity|]. split; [reflexivity|]. split; [reflexivity|]. split; [reflexivity|].
    assert (Ef : exists i, effect hst (nested g) m (is_dest code) (code_at code (f_pc f)) (in_args i) (in_results i) f (Halt h d f')).
    { unfold ref_step, step in Es. destruct (instruction (code_at code (f_pc f))) as [i|] eqn:Ei; [|destruct (f_gas f <? 0); discriminate Es].
      exists i. destruct (negb _); [discriminate|]. destruct (in_stateful i && _); [discriminate|].
      destruct (Z.ltb_spec (zlen (f_stack f)) (in_args i)); [discriminate|]. destruct (1024 <? _); [discriminate|].
      unfold charge in Es. destruct (f_gas f <? in_fee i); [discriminate|].
      pose proof (exec_effect hst (nested g) (g_keccak g) m rv code (is_dest code) _ i (with_gas (f_gas f - in_fee i) f) (instr_byte _ _ Ei) Ei ltac:(cbn; lia)) as X.
      rewrite Es in X. exact X. }
    destruct Ef as [i [(Hb & -> & -> & _)|([[Hb ->]|[Hb ->]] & _)]]; cbn [step_halt halt_status]; auto.
  - destruct Sh as (S1 & S2 & _ & S4 & S5 & S6 & ->). cbn [result_of fst snd] in Ex.
    exists (mkRes (failure_status e) 0 (f_refund f') [] 0), (f_world f'), v'.
    split; [exact O1|]. split; [reflexivity|]. split; [exact O2|]. split; [exact Ex|].
    cbn [cr_status cr_gas_left cr_gas_refund cr_output]. rewrite S1, S2, S4, S5, S6.
    split; [reflexivity|]. split; [reflexivity|]. split; [reflexivity|]. split; [reflexivity|]. split; [|auto].
    destruct e; cbn [failure_status In]; intuition.
Qed.
End Code.
