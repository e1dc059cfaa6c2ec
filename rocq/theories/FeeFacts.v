(** The table of SpecFees.v is the one of the reference; the checks come in that order. *)
From Verif Require Import Base Host SpecEvm SpecTrace SpecVm Opcodes Interp Vm SpecStep MemFacts JumpFacts ArithFacts SpecFacts VmFacts StepFacts Client ClientFacts
  SpecHost SpecFees FrameFacts ReasonFacts OpFacts OpFacts2 OpFacts3 ApiFacts RunFacts.
From Coq Require Import Lia ZArith List Bool.
Import ListNotations.

Lemma table_fees op i : is_byte op -> instruction op = Some i -> in_args i = pops op /\ in_results i = pushes op /\ in_fee i = base_fee op.
Proof.
  intros Hb Ei. assert (X : match instruction op with Some i => in_args i = pops op /\ in_results i = pushes op /\ in_fee i = base_fee op | None => True end).
  { clear Ei i. revert op Hb. apply byte_cases. cbn [seq map Z.of_nat Pos.of_succ_nat Pos.succ]. repeat (apply Forall_cons; [first [exact I|repeat split; vm_compute; reflexivity]|]). apply Forall_nil. }
  rewrite Ei in X. exact X.
Qed.
Lemma later_since op rv : later rv op = negb (rev_ge rv (since_of op)).
Proof.
  destruct (later rv op) eqn:E.
  - symmetry. apply negb_true_iff, since_introduced. unfold later in E. apply existsb_exists in E. destruct E as ([o s] & Hin & E).
    apply andb_true_iff in E. destruct E as [E1 E2]. apply Z.eqb_eq in E1. subst o. apply negb_true_iff in E2. eauto.
  - destruct (rev_ge rv (since_of op)) eqn:Er; [reflexivity|]. exfalso. apply since_introduced in Er. destruct Er as (s & Hin & Er).
    assert (later rv op = true); [|congruence]. unfold later. apply existsb_exists. exists (op, s). rewrite Er, Z.eqb_refl. auto.
Qed.
Lemma first_checks m rv h op : is_byte op -> first_check m rv h op = option_map failure_status (checks m rv h op).
Proof.
  intros Hb. unfold first_check, checks. destruct (instruction op) as [i|] eqn:Ei.
  - assert (A : assigned op = true). { destruct (assigned op) eqn:A; [reflexivity|]. apply (table_assigned op Hb) in A. congruence. }
    destruct (table_fees op i Hb Ei) as (-> & -> & ->). rewrite A, later_since, (table_since op i Hb Ei), (table_modifying op i Hb Ei). cbn [negb].
    destruct (negb _); [reflexivity|]. unfold is_modifying, static. rewrite (andb_comm (Z.odd _)).
    replace (existsb (Z.eqb op) modifying) with (existsb (fun x => op =? x) modifying) by reflexivity.
    destruct (_ && _); [reflexivity|]. destruct (_ <? _); [reflexivity|]. destruct (_ <? _); [reflexivity|]. destruct (_ <? _); reflexivity.
  - apply (table_assigned op Hb) in Ei. rewrite Ei. cbn [negb]. destruct (_ <? _); reflexivity.
Qed.

Section Fees.
Context {W : Type}.
Variable g : setting W.
Hypothesis Hg : setting_ok g.
Notation hst := (g_host g).
Notation eok := (exec_ok (g_code_of g)).

Theorem check_order v w rv code m si op so w' : at_op g v code m si op -> steps_to g v w rv code m si so w' ->
  match first_check m rv (zlen (si_stack si)) op with
  | Some sc => failed rv si sc so /\ w' = w
  | None => ~ In (so_status so) [EVMC_INVALID_INSTRUCTION; EVMC_UNDEFINED_INSTRUCTION; EVMC_STACK_UNDERFLOW; EVMC_STACK_OVERFLOW] /\
      (so_step so = STEP_RUNNING -> zlen (so_stack so) = zlen (si_stack si) - pops op + pushes op) /\
      (so_step so <> STEP_FAILED -> 0 <= so_gas so <= msg_gas m - base_fee op)
  end.
Proof.
  intros Ho St. pose proof (at_byte g v code m si op Ho) as Hb. pose proof (step_checks g Hg v w rv code m si op so w' Ho St) as X.
  pose proof (check_status g Hg v w rv code m si op so w') as Cs.
  rewrite (first_checks m rv (zlen (si_stack si)) op Hb). destruct (checks m rv (zlen (si_stack si)) op) as [e|] eqn:Ec; [exact X|].
  destruct X as (i & o & Ei & R & Eo & Ef). cbn [option_map].
  destruct (table_fees op i Hb Ei) as (Ta & Tr & Tf).
  split.
  { intros Hin. cbn [In] in Hin. assert (N : forall e, of_checks e = true -> so_status so <> failure_status e).
    { intros e He E. apply (Cs e Ho St He) in E. congruence. }
    repeat destruct Hin as [Hin|Hin]; try contradiction; symmetry in Hin.
    - exact (N InvalidInstruction eq_refl Hin).
    - exact (N UndefinedInstruction eq_refl Hin).
    - exact (N StackUnderflow eq_refl Hin).
    - exact (N StackOverflow eq_refl Hin). }
  split.
  { intros Hr. rewrite (height_after g Hg v w rv code m si op i so w' Ho St Ei Hr), Ta, Tr. reflexivity. }
  intros Hn. rewrite <- Tf.
  assert (Hgas : in_fee i <= msg_gas m).
  { unfold checks in Ec. rewrite Ei in Ec. destruct (negb _); [discriminate|]. destruct (_ && _); [discriminate|]. destruct (_ <? _); [discriminate|]. destruct (_ <? _); [discriminate|].
    destruct (Z.ltb_spec (msg_gas m) (in_fee i)); [discriminate|assumption]. }
  pose proof (fee_nn op i Hb Ei) as Hf.
  assert (G : match o with Next f' | Halt _ _ f' => 0 <= f_gas f' <= msg_gas m - in_fee i | Fail _ _ => True end).
  { pose proof (at_exec _ _ _ _ _ _ Ho) as He. pose proof (frame_still g code m w si He (at_args _ _ _ _ _ _ Ho)) as HF.
    pose proof (still_sane code (frame_in m w si) HF ltac:(cbn [frame_in f_gas]; lia)) as (_ & S1 & S2 & S3 & S4).
    destruct (Z.eq_dec op 0xFF) as [->|Hff].
    - subst o. change (SpecEvm.exec hst (nested g) (g_keccak g) m rv code (is_dest code) 255 (with_gas (msg_gas m - in_fee i) (frame_in m w si)))
        with (i_selfdestruct hst m rv (with_gas (msg_gas m - in_fee i) (frame_in m w si))).
      unfold i_selfdestruct. destruct (f_stack (with_gas (msg_gas m - in_fee i) (frame_in m w si))) as [|x s]; [exact I|].
      destruct (rev_ge rv Berlin); [destruct (h_access_account _ _ _) as [[] ?]|]; unfold charge;
        (match goal with |- context [?a <? ?b] => destruct (Z.ltb_spec a b); [exact I|] end);
        destruct (h_selfdestruct _ _ _ _); (destruct (_ && _) in * ); cbn in *; repeat match goal with |- context [if ?b then _ else _] => destruct b; cbn in * end; try lia.
    - pose proof Hg as [G1 G2 G3 G4]. destruct (nested_ok g Hg (msg_depth m) (depth_ok g _ _ He)) as [C1 C2].
      assert (X : good (if in_fee i =? 0 then 1 else 0) (with_gas (msg_gas m - in_fee i) (frame_in m w si)) o).
      { subst o. apply exec_good; try assumption. all: try apply (eok_msg _ _ _ He). all: try apply (eok_code _ _ _ He).
        unfold sane. cbn [frame_in with_gas f_gas f_active f_stack f_mem] in *. repeat split; try assumption; try lia; apply S3; assumption. }
      destruct o as [f'|h d f'|]; [|destruct X as [X _]|exact I]; destruct X as [D1 D2 D3 D4]; cbn [frame_in with_gas f_gas] in D1; destruct (in_fee i =? 0); lia. }
  destruct o as [f'|h d f'|e f']; cbn [one_result] in R.
  - destruct R as [-> _]. exact G.
  - destruct R as [-> _]. exact G.
  - exfalso. destruct R as [F _]. apply Hn. exact (fld_step _ _ _ _ F).
Qed.
End Fees.
