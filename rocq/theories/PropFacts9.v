(** Consequences about failures, effects, refunds and the Go adapter, in the form in which the property files state them. *)
From Verif Require Import Base Host SpecEvm SpecTrace SpecVm Opcodes Interp Vm SpecStep MemFacts JumpFacts ArithFacts SpecFacts VmFacts StepFacts Client ClientFacts
  SpecHost SpecFees SpecCause GoAdapter FrameFacts ReasonFacts OpFacts OpFacts2 OpFacts3 ApiFacts StaticFacts RunFacts FeeFacts SpecTop RefFacts PropFacts PropFacts2.
From Coq Require Import Lia ZArith List Bool.
Import ListNotations.

Section Fail.
Context {W : Type}.
Variable g : setting W.
Hypothesis Hg : setting_ok g.
Notation hst := (g_host g).
Notation eok := (exec_ok (g_code_of g)).

Lemma why_cause m rv code op (s : list Z) e : msg_depth m <= 1024 -> why m rv (is_dest code) op s e -> cause m rv code op (rev s) (failure_status e).
Proof.
  intros Hd. destruct e; cbn [why failure_status cause]; try tauto; try lia.
  - intros (d & r & -> & Hv & Ho). exists (rev r), d. split; [reflexivity|]. split; [rewrite <- is_dest_spec, Hv; discriminate|].
    destruct Ho as [Ho|(Ho & c & r' & -> & Hc)]; [left; exact Ho|right]. split; [exact Ho|]. exists (rev r'), c. auto.
  - intros (Hb & Hs & gas & a & v & r & -> & Hv). split; [exact Hs|]. right. split; [exact Hb|]. exists (rev r), v, a, gas.
    cbn [rev]. rewrite <- !app_assoc. auto.
  - intros (Hb & Hs & v & off & n & r & -> & Hn). split; [exact Hs|]. split; [exact Hb|]. exists (rev r), n, off, v. cbn [rev]. rewrite <- !app_assoc. auto.
Qed.
Lemma code_byte code p : Forall is_byte code -> is_byte (code_at code p).
Proof.
  intros Hc. unfold code_at, data_at. destruct (_ && _); [|unfold is_byte; lia].
  destruct (Nat.lt_ge_cases (Z.to_nat p) (length code)) as [h|h]; [rewrite Forall_forall in Hc; apply Hc, nth_In, h|rewrite nth_overflow by lia; unfold is_byte; lia].
Qed.

Lemma ref_step_cause m rv code f e f' : eok code m -> ref_step g m rv code f = Fail e f' ->
  cause m rv code (code_at code (f_pc f)) (rev (f_stack f)) (failure_status e).
Proof.
  intros He Es. pose proof (eok_depth _ _ _ He) as Hd. pose proof (code_byte code (f_pc f) (eok_code _ _ _ He)) as Hb.
  unfold ref_step, step in Es. set (b := code_at code (f_pc f)) in *.
  destruct (instruction b) as [i|] eqn:Ei.
  - destruct (rev_ge rv (in_since i)) eqn:Er; cbn [negb] in Es.
    2:{ injection Es as <- _. cbn. apply since_introduced. rewrite <- (table_since b i Hb Ei). exact Er. }
    destruct (in_stateful i && static m) eqn:Est.
    { injection Es as <- _. cbn. apply andb_true_iff in Est. destruct Est as [E1 E2]. split; [exact E2|]. left.
      rewrite (table_modifying b i Hb Ei) in E1. unfold is_modifying in E1. apply existsb_exists in E1. destruct E1 as (x & Hx & E). apply Z.eqb_eq in E. subst x. exact Hx. }
    destruct (Z.ltb_spec (zlen (f_stack f)) (in_args i)).
    { injection Es as <- _. cbn [failure_status cause]. destruct (table_fees b i Hb Ei) as (Ta & Tr & _). rewrite <- ?Ta, <- ?Tr. unfold zlen in *. rewrite rev_length. assumption. }
    destruct (Z.ltb_spec 1024 (zlen (f_stack f) - in_args i + in_results i)).
    { injection Es as <- _. cbn [failure_status cause]. destruct (table_fees b i Hb Ei) as (Ta & Tr & _). rewrite <- ?Ta, <- ?Tr. unfold zlen in *. rewrite rev_length. assumption. }
    unfold charge in Es. destruct (f_gas f <? in_fee i); [injection Es as <- _; exact I|].
    apply why_cause; [exact Hd|].
    pose proof (exec_reason hst (nested g) (g_keccak g) m rv code (is_dest code) b i (with_gas (f_gas f - in_fee i) f) Hb Ei ltac:(cbn; lia)) as X.
    rewrite Es in X. exact X.
  - destruct (f_gas f <? 0); injection Es as <- _; [exact I|]. cbn. apply table_assigned; assumption.
Qed.

Theorem failing_cause v w rv code m si op so w' : at_op g v code m si op -> steps_to g v w rv code m si so w' ->
  so_step so = STEP_FAILED -> cause m rv code op (si_stack si) (so_status so).
Proof.
  intros Ho (v1 & E & _) Hs. destruct (one_step g Hg v w rv code m si op Ho) as (so1 & w1 & v2 & E1 & _ & R & _).
  rewrite E in E1. injection E1 as <- <- <-.
  destruct (ref_step g m rv code (frame_in m w si)) as [f'|h d f'|e f'] eqn:Es; cbn [one_result] in R.
  - destruct R as [-> _]. discriminate Hs.
  - destruct R as [-> _]. destruct h; discriminate Hs.
  - destruct R as [[_ F _ _ _ _ _ _ _] _]. rewrite F. pose proof (ref_step_cause m rv code _ e f' (at_exec _ _ _ _ _ _ Ho) Es) as X.
    cbn [frame_in f_pc f_stack] in X. rewrite rev_involutive, (at_code _ _ _ _ _ _ Ho) in X. exact X.
Qed.

(** the run's last instruction *)
Theorem run_cause v w rv code m : reach g v -> eok code m ->
  exists n so w1 so' r w' v', observed g v w rv code m n so w1 /\ so_step so = STEP_RUNNING /\ observed g v w rv code m (S n) so' w' /\
    Execute g v w rv code m = Ok (r, w', v') /\ reach g v' /\
    cr_status r = so_status so' /\ cr_gas_left r = so_gas so' /\ cr_gas_refund r = so_refund so' /\ cr_output r = so_output so' /\
    In (so_step so') [STEP_STOPPED; STEP_RETURNED; STEP_REVERTED; STEP_FAILED] /\
    (so_step so' = STEP_REVERTED <-> cr_status r = EVMC_REVERT) /\ (so_step so' = STEP_STOPPED \/ so_step so' = STEP_RETURNED <-> cr_status r = EVMC_SUCCESS) /\
    (so_step so' = STEP_FAILED -> cr_gas_left r = 0 /\ cr_output r = [] /\ cr_gas_refund r = so_refund so /\ cause m rv code (code_at code (so_pc so)) (so_stack so) (cr_status r)).
Proof.
  intros Hv He.
  pose proof (run_ends g Hg (nested g) m rv code w He (proj1 (nested_ok g Hg (msg_depth m) (depth_ok g code m He)))) as Ends.
  assert (L : exists n f, ref_run g m rv code n (initial m w) = Next f /\ forall f', ref_step g m rv code f <> Next f').
  { fold (ref_run g) in Ends. change (run_for hst (nested g) (g_keccak g) m rv code (is_dest code)) with (ref_run g m rv code) in Ends.
    remember (S (Z.to_nat (msg_gas m))) as N. clear HeqN. induction N as [|N IH].
    - exfalso. apply (Ends (initial m w)). reflexivity.
    - destruct (ref_run g m rv code N (initial m w)) as [f|h d f|e f] eqn:E.
      + exists N, f. split; [exact E|]. intros f' E1. apply (Ends f'). rewrite (run_succ g), E. exact E1.
      + apply IH. discriminate.
      + apply IH. discriminate. }
  destruct L as (n & f & En & Hlast).
  assert (O1 : observed g v w rv code m n (shown STEP_RUNNING EVMC_FAILURE rv f (f_ret f)) (f_world f)).
  { apply (observed_case g Hg); [exact Hv|exact He|]. rewrite En. auto. }
  destruct (run_end g Hg v w rv code m n _ _ Hv He O1 eq_refl) as (f0 & Hs & _ & _ & En' & K). rewrite En in En'. injection En' as <-.
  destruct (K _ eq_refl Hlast) as [Er E1].
  destruct (drive_reach g Hg v w rv code m [Z.of_nat (S n)] Hv He) as (so' & w' & v1 & Ed & Sh).
  assert (O2 : observed g v w rv code m (S n) so' w').
  { exists [Z.of_nat (S n)], v1. split; [|exact Ed]. cbn [total]. rewrite Nat2Z.id. lia. }
  cbn [total] in Sh. rewrite Nat2Z.id, Nat.add_0_r, E1 in Sh.
  destruct (execute_reference g Hg v w rv code m Hv He) as [v' [Ex Rv]]. rewrite Er in Ex.
  exists n, (shown STEP_RUNNING EVMC_FAILURE rv f (f_ret f)), (f_world f), so'.
  cbn [shown so_pc so_stack so_refund].
  destruct (ref_step g m rv code f) as [f'|h d f'|e f'] eqn:Es.
  - exfalso. apply (Hlast f'). reflexivity.
  - destruct Sh as [-> ->]. cbn [result_of fst snd] in Ex. exists (mkRes (halt_status h) (f_gas f') (f_refund f') d 0), (f_world f'), v'.
    split; [exact O1|]. split; [reflexivity|]. split; [exact O2|]. split; [exact Ex|]. split; [exact Rv|].
    cbn [shown cr_status cr_gas_left cr_gas_refund cr_output so_status so_gas so_refund so_output so_step].
    split; [reflexivity|]. split; [reflexivity|]. split; [reflexivity|]. split; [reflexivity|].
    split; [destruct h; cbn; tauto|]. destruct h; cbn [step_halt halt_status]; repeat split; intros; try discriminate; auto; repeat match goal with H : _ \/ _ |- _ => destruct H end; discriminate.
  - destruct Sh as (S1 & S2 & _ & S4 & S5 & S6 & ->). cbn [result_of fst snd] in Ex.
    exists (mkRes (failure_status e) 0 (f_refund f') [] 0), (f_world f'), v'.
    split; [exact O1|]. split; [reflexivity|]. split; [exact O2|]. split; [exact Ex|]. split; [exact Rv|].
    cbn [cr_status cr_gas_left cr_gas_refund cr_output]. rewrite S1, S2, S4, S5, S6.
    split; [reflexivity|]. split; [reflexivity|]. split; [reflexivity|]. split; [reflexivity|].
    split; [cbn; tauto|]. split; [split; [discriminate|destruct e; discriminate]|].
    split; [split; [intros [X|X]; discriminate|destruct e; discriminate]|].
    intros _. split; [reflexivity|]. split; [reflexivity|]. split; [|exact (ref_step_cause m rv code f e f' He Es)].
    destruct (Z.lt_ge_cases (f_gas f) 0) as [Hneg|Hpos].
    + revert Es. unfold ref_step, SpecEvm.step. destruct (instruction _) as [i|] eqn:Ei.
      * pose proof (fee_nn _ _ (code_byte code (f_pc f) (eok_code _ _ _ He)) Ei).
        destruct (negb _); [intros [= <- <-]; reflexivity|]. destruct (_ && _); [intros [= <- <-]; reflexivity|].
        destruct (_ <? in_args i); [intros [= <- <-]; reflexivity|]. destruct (1024 <? _); [intros [= <- <-]; reflexivity|].
        unfold charge. destruct (Z.ltb_spec (f_gas f) (in_fee i)); [intros [= <- <-]; reflexivity|lia].
      * destruct (f_gas f <? 0); intros [= <- <-]; reflexivity.
    + pose proof (ref_step_good g Hg m rv code f He Hs Hpos) as G. rewrite Es in G. apply G.
Qed.

(** ** Go *)
Notation step_result so b := (mkGo b (so_output so) (so_gas so) (so_refund so)).
Lemma revision_listed r rv : In (r, rv) [(0, Istanbul); (1, Berlin); (2, London); (3, Paris); (4, Shanghai); (5, Cancun)] -> toEvmcRevision r = Some rv.
Proof. cbn [In]. intros X. repeat destruct X as [X|X]; try contradiction; injection X as <- <-; reflexivity. Qed.
Theorem go_run v w p rv :
  let code := p_code p in
  let m := mkMsg K_CALL (if p_static p then 1 else 0) (p_depth p) (p_gas p) (p_recipient p) (p_sender p) (p_input p) (p_value p) 0 0 (p_code_hash p) in
  reach g v -> eok code m -> In (p_revision p, rv) [(0, Istanbul); (1, Berlin); (2, London); (3, Paris); (4, Shanghai); (5, Cancun)] ->
  exists n so w1 so' o w' v',
    observed g v w rv code m n so w1 /\ so_step so = STEP_RUNNING /\ observed g v w rv code m (S n) so' w' /\
    Run g v w p = Ok (o, w', v') /\ reach g v' /\
    match so_step so' with
    | STEP_STOPPED | STEP_RETURNED => o = inl (step_result so' true)
    | STEP_REVERTED => o = inl (step_result so' false)
    | STEP_FAILED => o = inl (mkGo false [] 0 0) \/
        (o = inr (ErrUnexpected EVMC_FAILURE) /\ rev_ge rv Shanghai = true /\ (code_at code (so_pc so) = 0xF0 \/ code_at code (so_pc so) = 0xF5) /\
         exists rest size off value, so_stack so = rest ++ [size; off; value] /\ 49152 < size)
    | _ => False
    end.
Proof.
  intros code m Hv He Er. apply revision_listed in Er. change m with (message_of p) in *. clear m. subst code. destruct (run_cause v w rv (p_code p) (message_of p) Hv He) as (n & so & w1 & so' & r & w' & v' & A1 & A2 & A3 & A4 & A5 & A6 & A7 & A8 & A9 & A10 & A11 & A12 & A13).
  exists n, so, w1, so', (go_result_of r), w', v'. cbv zeta. split; [exact A1|]. split; [exact A2|]. split; [exact A3|].
  split. { unfold Run. destruct (Z.ltb_spec 5 (p_revision p)) as [h|h].
    - exfalso. unfold toEvmcRevision in Er. destruct (p_revision p) as [|q|q]; [lia| |discriminate]. destruct q as [[[]|[]|]|[[]|[]|]|]; try discriminate; lia.
    - rewrite Er, A4. reflexivity. }
  split; [exact A5|]. unfold go_result_of. rewrite A7, A8, A9.
  destruct (so_step so'); try (exfalso; cbn in A10; repeat destruct A10 as [A10|A10]; discriminate || contradiction).
  - rewrite (proj1 A12 (or_introl eq_refl)). reflexivity.
  - rewrite (proj1 A12 (or_intror eq_refl)). reflexivity.
  - rewrite (proj1 A11 eq_refl). reflexivity.
  - destruct (A13 eq_refl) as (B1 & B2 & B3 & B4). destruct (cr_status r); cbn [cause] in B4; auto; try contradiction.
Qed.
Theorem go_unsupported v w p : ~ 0 <= p_revision p <= 5 -> Run g v w p = Ok (inr ErrUnsupportedRevision, w, v).
Proof.
  intros N. unfold Run. destruct (Z.ltb_spec 5 (p_revision p)) as [h|h]; [reflexivity|]. assert (E : toEvmcRevision (p_revision p) = None).
  { unfold toEvmcRevision. destruct (p_revision p); try reflexivity; lia. }
  rewrite E. reflexivity.
Qed.
End Fail.
