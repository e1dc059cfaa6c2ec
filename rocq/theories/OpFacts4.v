(** SSTORE, LOG, SELFDESTRUCT, EXTCODECOPY, CREATE, CALL, as observed through StepN. *)
From Verif Require Import Base Host SpecEvm SpecCall SpecVm MemFacts JumpFacts ArithFacts SpecFacts Vm VmFacts SpecStep StepFacts Client ClientFacts
  SpecOps SpecHost GoStorage OpFacts OpFacts2 OpFacts3.
From Coq Require Import Lia ZArith List Bool.
Import ListNotations.

Lemma status_cost rv cold o c n : sstore_cost rv cold (GetStorageStatus o c n) = eip_sstore_cost rv cold o c n.
Proof.
  unfold sstore_cost, eip_sstore_cost, GetStorageStatus, sload_gas, sstore_set_gas, sstore_reset_gas.
  destruct (Z.eqb_spec c n), (Z.eqb_spec o 0), (Z.eqb_spec c 0), (Z.eqb_spec n 0), (Z.eqb_spec c o), (Z.eqb_spec n o), (Z.eqb_spec o c); subst; try lia; try congruence;
  cbn [negb andb]; destruct (rev_ge rv Berlin), cold; reflexivity.
Qed.
Lemma status_refund rv cold o c n : (cold = true -> o = c) -> sstore_refund rv cold (GetStorageStatus o c n) = eip_sstore_refund rv o c n.
Proof.
  intros Hd. unfold sstore_refund, eip_sstore_refund, GetStorageStatus, sload_gas, sstore_set_gas, sstore_reset_gas, clears_schedule, restore_refund, clear_refund.
  destruct cold; [specialize (Hd eq_refl); subst c|clear Hd];
  destruct (Z.eqb_spec o n), (Z.eqb_spec o 0), (Z.eqb_spec n 0), (Z.eqb_spec n o); subst; try lia; try congruence; rewrite ?Z.eqb_refl; cbn [negb andb]; try reflexivity;
  try (destruct (Z.eqb_spec c n), (Z.eqb_spec c 0), (Z.eqb_spec c o); subst; try lia; try congruence; rewrite ?Z.eqb_refl; cbn [negb andb]);
  repeat match goal with |- context [?a =? ?b] => destruct (Z.eqb_spec a b); try lia; try congruence end; cbn [negb andb];
  destruct (rev_ge rv Berlin), (rev_ge rv London); reflexivity.
Qed.

Section Ops.
Context {W : Type}.
Variable g : setting W.
Hypothesis Hg : setting_ok g.
Notation hst := (g_host g).
Notation keccak := (g_keccak g).
Notation sexec := (SpecEvm.exec hst (nested g) keccak).

(** SSTORE *)
Theorem op_sstore v w rv code m si rest k x cold w1 st w2 : at_op g v code m si 0x55 -> static m = false -> si_stack si = rest ++ [x; k] ->
  slot_cold hst rv w (msg_recipient m) k = (cold, w1) -> h_set_storage hst w1 (msg_recipient m) k x = (st, w2) ->
  (msg_gas m <= 2300 -> out_of_gas g v w rv code m si) /\
  (2300 < msg_gas m < sstore_cost rv cold st -> fails_with g v w rv code m si EVMC_OUT_OF_GAS w2) /\
  (2300 < msg_gas m -> sstore_cost rv cold st <= msg_gas m ->
     steps_to g v w rv code m si (running rv (si_pc si + 1) (msg_gas m - sstore_cost rv cold st) (si_refunds si + sstore_refund rv cold st) rest
       (whole_words (si_mem si)) (si_ret si)) w2).
Proof.
  intros A Hst Hs Hco Hset. pose proof (stack_room code m si rest [x; k] 2 (at_args _ _ _ _ _ _ A) Hs eq_refl) as Hh. pose proof (zlen_nonneg rest).
  assert (Hz : zlen (si_stack si) = zlen rest + 2) by (rewrite Hs, zlen_app; reflexivity).
  set (i := mkInstr 2 0 0 Istanbul true). assert (Hst' : in_stateful i && static m = false) by exact Hst.
  set (f0 := with_gas (msg_gas m - in_fee i) (frame_in m w si)).
  assert (He : sexec m rv code (is_dest code) 0x55 f0 = if msg_gas m <=? 2300 then Fail OutOfGas f0 else
    charge (sstore_cost rv cold st) (with_world w2 f0) (fun f2 => yield (rev rest) (add_refund (sstore_refund rv cold st) f2))).
  { unfold f0. cbn [SpecEvm.exec]. unfold i_sstore. stk. rewrite Hs, rev_app_distr. cbn [rev app]. rewrite Z.sub_0_r. change (f_gas (with_gas (msg_gas m) (frame_in m w si))) with (msg_gas m).
    destruct (msg_gas m <=? 2300); [reflexivity|].
    change (f_world (with_gas (msg_gas m) (frame_in m w si))) with w.
    unfold slot_cold, self in *. destruct (rev_ge rv Berlin).
    - destruct (h_access_storage hst w (msg_recipient m) k) as [a w1']. injection Hco as <- <-. cbn [with_world f_world]. rewrite Hset. reflexivity.
    - injection Hco as <- <-. change (f_world (with_gas (msg_gas m) (frame_in m w si))) with w. rewrite Hset. reflexivity. }
  split; [|split].
  - intros Hl. destruct (Z.lt_ge_cases (msg_gas m) 0) as [Hneg|Hp].
    + apply (base_fee_short g Hg v w rv code m si 0x55 i A eq_refl (istanbul rv) Hst'); unfold i; cbn [in_args in_results in_fee]; lia.
    + destruct (Z.leb_spec (msg_gas m) 2300); [|lia].
      destruct (fail_result g Hg v w rv code m si 0x55 i _ _ A eq_refl (istanbul rv) Hst' ltac:(cbn; lia) ltac:(cbn [i in_args in_results]; lia) ltac:(cbn [i in_fee]; lia) He) as (so & X & Y).
      exists so. split; [exact X|exact Y].
  - intros [Hp Hlt]. destruct (Z.leb_spec (msg_gas m) 2300); [lia|].
    destruct (charged_in g Hg v w rv code m si 0x55 i w2 _ _ A eq_refl (istanbul rv) Hst' ltac:(cbn; lia) ltac:(cbn [i in_args in_results]; lia) ltac:(cbn [i in_fee]; lia) He) as [X _].
    apply X. cbn [i in_fee]. lia.
  - intros Hp Hge. destruct (Z.leb_spec (msg_gas m) 2300); [lia|].
    destruct (charged_in g Hg v w rv code m si 0x55 i w2 _ _ A eq_refl (istanbul rv) Hst' ltac:(cbn; lia) ltac:(cbn [i in_args in_results]; lia) ltac:(cbn [i in_fee]; lia) He) as [_ X].
    specialize (X ltac:(cbn [i in_fee]; lia)).
    destruct (next_result g Hg v w rv code m si 0x55 i _ A eq_refl (istanbul rv) Hst' ltac:(cbn; lia) ltac:(cbn [i in_args in_results]; lia) ltac:(cbn [i in_fee]; lia) X) as [R _].
    unfold i in R. flds. rewrite rev_involutive, <- whole_words_eq, Z.add_0_l in R. exact R.
Qed.

(** LOG0 .. LOG4 *)
Lemma log_case n (P : Z -> Prop) : 0 <= n <= 4 -> P 0 -> P 1 -> P 2 -> P 3 -> P 4 -> P n.
Proof. intros Hn. assert (n = 0 \/ n = 1 \/ n = 2 \/ n = 3 \/ n = 4) as [-> | [-> | [-> | [-> | ->]]]] by lia; auto. Qed.
Lemma log_instr n : 0 <= n <= 4 -> instruction (0xA0 + n) = Some (mkInstr (n + 2) 0 (375 * (n + 1)) Istanbul true).
Proof. intros Hn. apply (log_case n (fun n => instruction (0xA0 + n) = Some (mkInstr (n + 2) 0 (375 * (n + 1)) Istanbul true)) Hn); reflexivity. Qed.
Lemma log_exec n m rv code (f : frame W) : 0 <= n <= 4 -> sexec m rv code (is_dest code) (0xA0 + n) f = i_log hst m n f.
Proof. intros Hn. apply (log_case n (fun n => sexec m rv code (is_dest code) (0xA0 + n) f = i_log hst m n f) Hn); reflexivity. Qed.

Theorem op_log v w rv code m si n rest topics len off : 0 <= n <= 4 -> at_op g v code m si (0xA0 + n) -> static m = false ->
  si_stack si = rest ++ rev topics ++ [len; off] -> zlen topics = n ->
  let cost := 375 * (n + 1) + 8 * len + growth_cost (si_mem si) off len in
  (cost <= msg_gas m -> exists mem',
     steps_to g v w rv code m si (running rv (si_pc si + 1) (msg_gas m - cost) (si_refunds si) rest mem' (si_ret si))
       (h_emit_log hst w (msg_recipient m) (data_bytes (si_mem si) off len) topics) /\
     overwritten (si_mem si) mem' (grown (si_mem si) off len) 0 0 (fun _ => 0)) /\
  (msg_gas m < cost -> out_of_gas g v w rv code m si).
Proof.
  intros Hn A Hst Hs Ht cost. pose proof (zlen_nonneg rest).
  assert (Hs' : si_stack si = rest ++ rev (off :: len :: topics)).
  { rewrite Hs. cbn [rev]. rewrite <- app_assoc. reflexivity. }
  assert (Hz : zlen (si_stack si) = zlen rest + (n + 2)) by (rewrite Hs', zlen_app, zlen_rev, !zlen_cons; lia).
  pose proof (sk_height _ _ _ (at_args _ _ _ _ _ _ A)) as Hh.
  assert (Hl : 0 <= len).
  { pose proof (sk_words _ _ _ (at_args _ _ _ _ _ _ A)) as F. rewrite Hs in F. apply Forall_app in F. destruct F as [_ F]. apply Forall_app in F. destruct F as [_ F]. inversion F as [|? ? F1 F2]; subst. apply F1. }
  assert (Hc : 0 <= 8 * len + growth_cost (si_mem si) off len) by (pose proof (growth_nonneg (si_mem si) off len); lia).
  assert (Lt : length topics = Z.to_nat n) by (unfold zlen in Ht; lia).
  destruct (dyn_op g Hg v w rv code m si (0xA0 + n) _ (off :: len :: topics) rest (8 * len + growth_cost (si_mem si) off len)
    (fun f => yield (rev rest) (with_world (h_emit_log hst (f_world f) (msg_recipient m) (read_bytes (f_mem f) off len) topics) (touch off len f))) _
    A (log_instr n Hn) (istanbul rv) ltac:(exact Hst) Hs' ltac:(rewrite !zlen_cons; cbn [in_args]; lia) ltac:(cbn [in_results]; lia) Hc
    ltac:(cbv zeta; rewrite (log_exec n m rv code _ Hn); unfold i_log; stk; rewrite Hs', rev_app_distr, rev_involutive; cbn [app]; rewrite firstn_app, skipn_app, Lt, Nat.sub_diag;
      rewrite <- Lt, firstn_all, skipn_all; cbn [firstn skipn app]; rewrite app_nil_r; rewrite <- (fee_eq m w si (msg_gas m - 375 * (n + 1))); reflexivity)
    eq_refl) as [X Y]. flds.
  assert (Ec : 375 * (n + 1) + (8 * len + growth_cost (si_mem si) off len) = cost) by (unfold cost; lia). rewrite Ec in *.
  split; [|exact Y]. intros Hf. destruct (X Hf) as [R S]. eexists. split.
  - rewrite rev_involutive in R. rewrite data_bytes_read. exact R.
  - refine (show_mem code _ (si_mem si) 0 0 (fun _ => 0) S _). intros i Hi. flds.
    destruct (Z.leb_spec 0 i), (Z.ltb_spec i (0 + 0)); try lia; reflexivity.
Qed.

(** SELFDESTRUCT *)
Notation beneficiary_cold := (SpecHost.beneficiary_cold hst).
Theorem op_selfdestruct v w rv code m si rest a cold w1 first w2 : at_op g v code m si 0xFF -> static m = false -> si_stack si = rest ++ [a] ->
  let b := a mod 2 ^ 160 in
  beneficiary_cold rv w b = (cold, w1) -> h_selfdestruct hst w1 (msg_recipient m) b = (first, w2) ->
  let cost := 5000 + (if (0 <? h_get_balance hst w (msg_recipient m)) && negb (h_account_exists hst w b) then 25000 else 0) + (if cold then 2600 else 0) in
  (cost <= msg_gas m ->
     steps_to g v w rv code m si (ended STEP_STOPPED EVMC_SUCCESS rv (si_pc si + 1) (msg_gas m - cost)
       (si_refunds si + (if first && negb (rev_ge rv London) then 24000 else 0)) rest (whole_words (si_mem si)) []) w2) /\
  (5000 <= msg_gas m < cost -> fails_with g v w rv code m si EVMC_OUT_OF_GAS w1) /\
  (msg_gas m < 5000 -> out_of_gas g v w rv code m si).
Proof.
  intros A Hst Hs b Hco Hsd cost. pose proof (stack_room code m si rest [a] 1 (at_args _ _ _ _ _ _ A) Hs eq_refl) as Hh. pose proof (zlen_nonneg rest).
  assert (Hz : zlen (si_stack si) = zlen rest + 1) by (rewrite Hs, zlen_app; reflexivity).
  set (i := mkInstr 1 0 5000 Istanbul true). assert (Hst' : in_stateful i && static m = false) by exact Hst.
  set (dyn := (if (0 <? h_get_balance hst w (msg_recipient m)) && negb (h_account_exists hst w b) then 25000 else 0) + (if cold then 2600 else 0)).
  assert (Hdyn : cost = 5000 + dyn) by (unfold cost, dyn; lia).
  set (f0 := with_gas (msg_gas m - in_fee i) (frame_in m w si)).
  set (k := fun f2 : frame W => let '(fst', w') := h_selfdestruct hst (f_world f2) (self m) b in
    let f3 := with_world w' f2 in let f4 := if fst' && negb (rev_ge rv London) then add_refund 24000 f3 else f3 in
    Halt Stopped [] (with_pc (si_pc si + 1) (with_stack (rev rest) f4))).
  assert (He : sexec m rv code (is_dest code) 0xFF f0 = charge dyn (with_world w1 f0) k).
  { unfold f0. cbn [SpecEvm.exec]. unfold i_selfdestruct. stk. rewrite Hs, rev_app_distr. cbn [rev app]. change (addr_of a) with b.
    change (f_world (with_gas (msg_gas m - in_fee i) (frame_in m w si))) with w. unfold beneficiary_cold in Hco. destruct (rev_ge rv Berlin).
    - destruct (h_access_account hst w b) as [acs w1']. injection Hco as <- <-. reflexivity.
    - injection Hco as <- <-. reflexivity. }
  split; [|split].
  - intros Hf. destruct (charged_in g Hg v w rv code m si 0xFF i w1 _ _ A eq_refl (istanbul rv) Hst' ltac:(cbn; lia) ltac:(cbn [i in_args in_results]; lia)
      ltac:(cbn [i in_fee]; unfold dyn in Hdyn; destruct (_ && _), cold; lia) He) as [_ X].
    cbn [i in_fee] in X. rewrite <- Hdyn in X. specialize (X Hf). unfold k in X. change (f_world (with_gas (msg_gas m - cost) (frame_in m w1 si))) with w1 in X.
    change (self m) with (msg_recipient m) in X. rewrite Hsd in X. cbv zeta in X.
    pose proof (halt_result g Hg v w rv code m si 0xFF i _ _ _ A eq_refl (istanbul rv) Hst' ltac:(cbn; lia) ltac:(cbn [i in_args in_results]; lia)
      ltac:(cbn [i in_fee]; unfold dyn in Hdyn; destruct (_ && _), cold; lia) X) as R.
    unfold cost in R. destruct (first && negb (rev_ge rv London)); flds; rewrite rev_involutive, <- whole_words_eq in R; rewrite ?Z.add_0_r; exact R.
  - intros [Hp Hlt]. destruct (charged_in g Hg v w rv code m si 0xFF i w1 _ _ A eq_refl (istanbul rv) Hst' ltac:(cbn; lia) ltac:(cbn [i in_args in_results]; lia)
      ltac:(cbn [i in_fee]; lia) He) as [X _].
    apply X. cbn [i in_fee]. lia.
  - intros Hlt. apply (base_fee_short g Hg v w rv code m si 0xFF i A eq_refl (istanbul rv) Hst'); cbn [i in_args in_results in_fee]; lia.
Qed.
End Ops.
