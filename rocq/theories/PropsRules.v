(** * The specification of the conformance tests *)
From Verif Require Import Base Host SpecEvm SpecVm JumpFacts GoAdapter SpecLfvm LfvmToy Ledger Ct SpecCt CtRules SpecRules CtRulesTop CtCover.
From Coq Require Import Lia ZArith List Bool.
Import ListNotations.
Open Scope Z_scope.

(** ** C81: the rules that are found for a state describe one step of the EVM *)
Theorem C81_sound : forall tx keccak hash, tx_ok tx -> forall s rv, test_state s -> In (ct_revision s, rv) revisions -> ~ push_data (ct_code s) (ct_pc s) ->
  exists rs, GetRulesFor tx keccak s = Ok rs /\ forall r, In r rs -> exists s', r_effect r s = Ok s' /\
    same_state s' (ct_after s (run_for (go_host (ct_rc tx) tx) (answers ct_Call) keccak (message_of (ToVmParameters hash s)) rv (ct_code s) (is_dest (ct_code s)) 1 (frame_of s))).
Proof. exact (@rules_sound). Qed.
(** so rules never contradict each other *)
Theorem C81_agree : forall tx keccak (hash : list Z -> Z), tx_ok tx -> forall s rv r1 r2 s1 s2 rs, test_state s -> In (ct_revision s, rv) revisions -> ~ push_data (ct_code s) (ct_pc s) -> GetRulesFor tx keccak s = Ok rs ->
  In r1 rs -> In r2 rs -> r_effect r1 s = Ok s1 -> r_effect r2 s = Ok s2 -> same_state s1 s2.
Proof. exact (@rules_agree). Qed.
(** the rules that are found are those whose conditions hold, in all states *)
Theorem C81_lookup : forall tx keccak s, 0 <= ct_pc s /\ Forall (fun v => 0 <= v) (ct_stack s) -> ct_pc s < 65536 ->
  exists rs, GetRulesFor tx keccak s = Ok rs /\ forall r, In r rs <-> In r (getAllRules tx keccak) /\ applies tx s r = Ok true.
Proof. exact (@lookup). Qed.
(** states that are not running, and positions of data, are left alone *)
Theorem C81_idle : forall tx keccak s, 0 <= ct_pc s /\ Forall (fun v => 0 <= v) (ct_stack s) -> ct_pc s < 65536 -> 0 <= ct_revision s <= 5 ->
  ct_stat s <> CtRunning \/ push_data (ct_code s) (ct_pc s) ->
  exists rs, GetRulesFor tx keccak s = Ok rs /\ rs <> [] /\ forall r, In r rs -> r_effect r s = Ok s.
Proof. exact (@rules_idle). Qed.
(** an unknown revision fails *)
Theorem C81_unknown : forall tx keccak s, 0 <= ct_pc s /\ Forall (fun v => 0 <= v) (ct_stack s) -> ct_pc s < 65536 -> ct_revision s = 99 -> ~ push_data (ct_code s) (ct_pc s) ->
  exists rs, GetRulesFor tx keccak s = Ok rs /\ rs <> [] /\ forall r, In r rs -> exists s', r_effect r s = Ok s' /\ ct_stat s' = CtFailed.
Proof. exact (@rules_unknown). Qed.

(** the state tests start with: an account with funds, a slot that has been accessed *)
Definition rules_world : ctw := mkCtw [(1, 5)] [(1, 5)] [1] [] [(0xAB, (10, [0x60; 1]))] [0xAB] [] [] [mkFuture true [1; 2] 30 4 0x77] false [] [3; 4].
Definition rules_state (rev : Z) (code : list Z) (pc gas : Z) (stack mem ret : list Z) : state :=
  mkCt CtRunning rev false pc gas 0 code stack mem 0xAB 0xCD 0 [1; 2] [9] ret rules_world.
Ltac test_tac := split; [split; try reflexivity; cbn [rules_state ct_stat ct_code ct_gas ct_refund ct_stack ct_mem ct_self ct_caller ct_value ct_calldata ct_last];
    try (apply forallb_byte; vm_compute; reflexivity); try (repeat constructor; unfold is_word; lia); try (split; vm_compute; congruence); try (vm_compute; congruence)
  |vm_compute; split; congruence|reflexivity|reflexivity|split; cbn; repeat constructor; cbn; lia].
Ltac not_data := intros (r & h1 & h2 & h3); apply start_nonneg in h1; cbn in h3; lia.
(** SSTORE of 7 at 1, which holds 5; a CALL of 0xAB, which answers [1; 2] *)
Definition c81_sstore := rules_state 5 [0x55] 0 10000 [7; 1] [] [].
Definition c81_call := rules_state 5 [0xF1] 0 10000 [2; 0; 0; 0; 0; 0xAB; 500] [] [].
Definition only_rule (s : state) (P : state -> Prop) : Prop := match GetRulesFor lt_tx lg_hash s with Ok [r] => match r_effect r s with Ok s' => P s' | _ => False end | _ => False end.
Example C81_case : tx_ok lt_tx /\ test_state c81_sstore /\ test_state c81_call /\ ~ push_data (ct_code c81_sstore) (ct_pc c81_sstore) /\
  only_rule c81_sstore (fun s' => s' = mkCt CtRunning 5 false 1 7100 0 [0x55] [] [] 0xAB 0xCD 0 [1; 2] [9] [] (MarkWarm 1 (SetCurrent 1 7 rules_world))) /\
  only_rule c81_call (fun s' => ct_stack s' = [1] /\ ct_gas s' = 10000 - 103 - 30 /\ ct_refund s' = 4 /\ ct_mem s' = [1; 2] ++ repeat 0 30 /\ ct_last s' = [1; 2] /\ zlen (w_past (ct_world s')) = 1).
Proof.
  split; [exact lt_tx_ok|]. split; [test_tac|]. split; [test_tac|]. split; [not_data|]. split; [vm_compute; reflexivity|]. vm_compute. repeat split.
Qed.
(** an unknown revision at data: two rules, one does nothing, the other one fails *)
Definition c81_data := rules_state 99 [0x60; 1] 1 100 [] [] [].
Theorem C81_unknown_refuted : test_state c81_data /\
  match GetRulesFor lt_tx lg_hash c81_data with Ok [r1; r2] => exists s1 s2, r_effect r1 c81_data = Ok s1 /\ r_effect r2 c81_data = Ok s2 /\ ~ same_state s1 s2 | _ => False end.
Proof.
  split; [test_tac|]. vm_compute. eexists. eexists. split; [reflexivity|]. split; [reflexivity|]. intros [h _]. discriminate h.
Qed.
(** a memory that is not a number of words: MSIZE is 5 in the rules, 32 in the EVM; a state with a result: STOP removes it *)
Notation evm tx s rv := (run_for (go_host (ct_rc tx) tx) (answers ct_Call) lg_hash (message_of (ToVmParameters lg_hash s)) rv (ct_code s) (is_dest (ct_code s)) 1 (frame_of s)).
Definition c81_msize := rules_state 5 [0x59] 0 100 [] [1; 2; 3; 4; 5] [].
Definition c81_stop := rules_state 5 [0] 0 100 [] [] [1].
Theorem C81_state_refuted : (ct_ok c81_msize /\ ct_ok c81_stop) /\
  only_rule c81_msize (fun s' => ~ same_state s' (ct_after c81_msize (evm lt_tx c81_msize Cancun))) /\
  only_rule c81_stop (fun s' => ~ same_state s' (ct_after c81_stop (evm lt_tx c81_stop Cancun))).
Proof.
  split; [split; (split; try reflexivity; cbn [rules_state ct_stat ct_code ct_gas ct_refund ct_stack ct_mem ct_self ct_caller ct_value ct_calldata ct_last];
    try (apply forallb_byte; vm_compute; reflexivity); try (repeat constructor; unfold is_word; lia); try (split; vm_compute; congruence); try (vm_compute; congruence))|]. split.
  - vm_compute. intros [_ h]. specialize (h ltac:(discriminate)). destruct h as (_ & _ & _ & _ & _ & _ & _ & _ & _ & _ & _ & h & _). discriminate h.
  - vm_compute. intros [_ h]. specialize (h ltac:(discriminate)). destruct h as (_ & _ & _ & _ & _ & _ & _ & _ & _ & _ & h). discriminate h.
Qed.
Print Assumptions C81_sound.
Print Assumptions C81_agree.
Print Assumptions C81_lookup.
Print Assumptions C81_idle.
Print Assumptions C81_unknown.
Print Assumptions C81_unknown_refuted.
Print Assumptions C81_state_refuted.

(** ** C82: all states have rules, but for those of a short list; with two exceptions for SSTORE those fail *)
Theorem C82_coverage : forall tx keccak s, test_state s -> 0 <= ct_revision s <= 5 -> ~ push_data (ct_code s) (ct_pc s) ->
  exists rs, GetRulesFor tx keccak s = Ok rs /\ (rs = [] <-> gap s (code_at (ct_code s) (ct_pc s))).
Proof. exact (@rules_cover). Qed.
Theorem C82_gaps_fail : forall tx keccak hash s rv op, test_state s -> In (ct_revision s, rv) revisions -> code_at (ct_code s) (ct_pc s) = op -> gap s op ->
  (op = 0x55 -> ct_readonly s = true \/ ct_gas s = 2300) ->
  exists e f, run_for (go_host (ct_rc tx) tx) (answers ct_Call) keccak (message_of (ToVmParameters hash s)) rv (ct_code s) (is_dest (ct_code s)) 1 (frame_of s) = Fail e f.
Proof. exact (@gap_fails). Qed.
(** a conditional jump that is not taken, without gas: fails, but there is no rule *)
Definition c82_jumpi := rules_state 4 [0x57; 0x5B] 0 5 [0; 1] [] [].
Example C82_case : test_state c82_jumpi /\ ~ push_data (ct_code c82_jumpi) (ct_pc c82_jumpi) /\ gap c82_jumpi (code_at (ct_code c82_jumpi) (ct_pc c82_jumpi)) /\ GetRulesFor lt_tx lg_hash c82_jumpi = Ok [] /\
  ~ gap c81_sstore (code_at (ct_code c81_sstore) (ct_pc c81_sstore)).
Proof.
  split; [test_tac|]. split; [not_data|]. split; [apply (gap_jumpi c82_jumpi 1 0 [] eq_refl); [reflexivity|right; reflexivity]|]. split; [vm_compute; reflexivity|].
  intros h. destruct (C82_coverage lt_tx lg_hash c81_sstore) as (rs & e & h2); [exact (proj1 (proj2 C81_case))|cbn; lia|exact (proj1 (proj2 (proj2 (proj2 C81_case))))|]. apply h2 in h. subst rs. destruct C81_case as (_ & _ & _ & _ & k & _). unfold only_rule in k. rewrite e in k. exact k.
Qed.
(** every state has a rule? no, not even those that do not fail: SSTORE of the value that a slot, not accessed before, has *)
Definition c82_sstore := rules_state 4 [0x55] 0 10000 [0; 2] [] [].
Theorem C82_coverage_refuted : test_state c82_sstore /\ GetRulesFor lt_tx lg_hash c82_sstore = Ok [] /\
  exists f, evm lt_tx c82_sstore Shanghai = Next f /\ f_gas f = 7800.
Proof. split; [test_tac|]. split; [vm_compute; reflexivity|]. eexists. split; vm_compute; reflexivity. Qed.
Print Assumptions C82_coverage.
Print Assumptions C82_gaps_fail.
Print Assumptions C82_coverage_refuted.
