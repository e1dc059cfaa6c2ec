(** * The conformance test driver *)
From Verif Require Import Base Host SpecEvm SpecVm Vm Client ClientFacts GoAdapter SpecLfvm LfvmToy Ledger Ct SpecCt CtRules SpecRules CtCover PropsRules CtPick CtDriver SpecDriver CtDriverFacts.
From Coq Require Import Lia ZArith List Bool.
Import ListNotations.
Open Scope Z_scope.
Notation evmzero g hash v := (fun s n => do! '(s', e, _) <- EvmzeroStepN g hash v s n; Ok (s', e)).

(** ** C83: both targets pass the tests for all states, and the driver reports targets that do something else than the EVM *)
Theorem C83_lfvm : forall tx keccak hash, tx_ok tx -> (forall d, is_word (keccak d)) -> forall FilterRules, (forall rs, incl (FilterRules rs) rs) ->
  forall Call s rv, calls_ok (answers Call) 0 -> from_journal (answers Call) -> test_state s -> In (ct_revision s, rv) revisions -> answered tx hash s rv -> ct_pc s <= zlen (ct_code s) ->
  opRun tx keccak FilterRules (LfvmStepN (ct_rc tx) tx Call keccak hash) s = Passed.
Proof. exact (@lfvm_passes). Qed.
Theorem C83_evmzero : forall tx keccak hash, tx_ok tx -> forall FilterRules, (forall rs, incl (FilterRules rs) rs) ->
  forall g v s rv, setting_ok g -> reach g v -> g_host g = go_host (ct_rc tx) tx -> g_keccak g = keccak -> g_code_of g (hash (ct_code s)) = ct_code s -> from_journal (nested g) ->
  test_state s -> In (ct_revision s, rv) revisions -> answered tx hash s rv -> ct_pc s <= zlen (ct_code s) + 32 ->
  opRun tx keccak FilterRules (evmzero g hash v) s = Passed.
Proof. exact (@evmzero_passes). Qed.
(** states that are not running, and states of an unknown revision, give no issues *)
Theorem C83_others : forall tx keccak hash FilterRules, (forall rs, incl (FilterRules rs) rs) -> forall s Call g v, 0 <= ct_pc s < 65536 -> Forall (fun v => 0 <= v) (ct_stack s) -> zlen (ct_code s) < 2 ^ 16 ->
  0 <= ct_revision s <= 5 /\ ct_stat s <> CtRunning \/ ct_revision s = 99 ->
  opRun tx keccak FilterRules (LfvmStepN (ct_rc tx) tx Call keccak hash) s <> Issue /\ opRun tx keccak FilterRules (evmzero g hash v) s <> Issue.
Proof. exact (@others_pass). Qed.
(** any target: a test is passed exactly if the target, asked for one step, gets to a state like that of the EVM; states without rules
    (C82), and rules that are filtered out, are left aside *)
Theorem C83_exact : forall tx keccak hash, tx_ok tx -> forall FilterRules, (forall rs, incl (FilterRules rs) rs) ->
  forall StepN s rv, test_state s -> In (ct_revision s, rv) revisions -> ~ push_data (ct_code s) (ct_pc s) -> ~ gap s (code_at (ct_code s) (ct_pc s)) ->
  (forall rs, rs <> [] -> FilterRules rs <> []) ->
  opRun tx keccak FilterRules StepN s = Passed <->
  exists s', StepN s 1 = Ok (s', None) /\
    alike_states s' (ct_after s (run_for (go_host (ct_rc tx) tx) (answers ct_Call) keccak (message_of (ToVmParameters hash s)) rv (ct_code s) (is_dest (ct_code s)) 1 (frame_of s))).
Proof. exact (@exact). Qed.

(** calls that are answered by the journal if the answer keeps the contract, and fail otherwise *)
Definition honest (gas : Z) (r : call_result) : bool :=
  (0 <=? gr_gas_left r) && (gr_gas_left r <=? gas) && (Z.abs (gr_gas_refund r) <=? 199 * (gas - gr_gas_left r)) &&
  forallb (fun b => (0 <=? b) && (b <? 256)) (gr_output r) && (zlen (gr_output r) <? 2 ^ 63) && (0 <=? gr_created r) && (gr_created r <? 2 ^ 160).
Definition jr_call (w : ctw) (kind : go_kind) (p : call_params) : option call_result * ctw :=
  let '(r, w') := JournalCall kind p w in if honest (cp_gas p) r then (Some r, w') else (None, w).
Lemma honest_ok m r : 0 <= msg_gas m -> honest (msg_gas m) r = true <-> call_ok m (cresult_of (Some r)).
Proof.
  intros hg. unfold honest. rewrite !andb_true_iff, !Z.leb_le, !Z.ltb_lt, forallb_forall. cbn [cresult_of]. split.
  - intros h. split; cbn [cr_gas_left cr_gas_refund cr_output cr_create_address]; try tauto; [|unfold is_addr; tauto]. apply Forall_forall. intros x hx. unfold is_byte. pose proof (proj2 (proj1 (proj1 (proj1 h))) x hx). lia.
  - intros [h1 h2 h3 h4 h5]. cbn [cr_gas_left cr_gas_refund cr_output cr_create_address] in *. unfold is_addr in h5. repeat split; try tauto. intros x hx. rewrite Forall_forall in h3. specialize (h3 x hx). unfold is_byte in h3. lia.
Qed.
Lemma jr_calls d : calls_ok (answers jr_call) d.
Proof.
  intros w m hm hg hd. unfold answers, jr_call. destruct (JournalCall (go_kind_of m) (call_params_of m) w) as [r w'] eqn:e. change (cp_gas (call_params_of m)) with (msg_gas m).
  destruct (honest (msg_gas m) r) eqn:h; cbn [fst]; [apply honest_ok; assumption|]. split; cbn [cresult_of cr_gas_left cr_gas_refund cr_output cr_create_address]; [lia|rewrite Z.abs_0; lia|constructor|reflexivity|unfold is_addr; lia].
Qed.
Lemma jr_journal : from_journal (answers jr_call).
Proof.
  intros w m h. unfold answers, ct_Call, jr_call in *. destruct (JournalCall (go_kind_of m) (call_params_of m) w) as [r w'] eqn:e. cbn [fst] in h. change (cp_gas (call_params_of m)) with (msg_gas m).
  rewrite (proj2 (honest_ok m r ltac:(pose proof (cok_gas _ _ h); lia)) h). reflexivity.
Qed.
Definition dr_setting (code : list Z) : setting ctw := mkSetting (go_host (ct_rc lt_tx) lt_tx) lg_hash (fun n => Z.of_nat n) (fun _ => repeat None 1024)
  (fun w m => let '(r, w') := answers jr_call w m in Done r w') (fun _ => code).
Lemma dr_setting_ok code : setting_ok (dr_setting code) /\ from_journal (nested (dr_setting code)).
Proof.
  split.
  - split; cbn [dr_setting g_host g_keccak g_bufs g_handler g_code_of].
    + exact (CtEnv.em_host _ _ _ _ _ (ct_most lt_tx jr_call lg_hash lt_tx_ok lg_hash_word (jr_calls 0))).
    + exact lg_hash_word.
    + intros _. vm_compute. reflexivity.
    + intros w m hm hg hd. pose proof (jr_calls (msg_depth m - 1) w m hm hg ltac:(lia)) as X. destruct (answers jr_call w m) as [r w']. constructor. exact X.
  - intros w m h. unfold nested. cbn [dr_setting g_handler]. rewrite (jr_journal w m h). destruct (answers ct_Call w m). reflexivity.
Qed.

Notation test StepN s := (opRun lt_tx lg_hash (fun rs => rs) StepN s).
Notation lfvm := (LfvmStepN (ct_rc lt_tx) lt_tx jr_call lg_hash lg_hash).
Lemma keep_all (rs : list rule) : incl rs rs. Proof. intros x h. exact h. Qed.
(** the CALL of C81: the target is at an instruction with rules, its call is answered by the journal *)
Example C83_case : tx_ok lt_tx /\ (forall d, is_word (lg_hash d)) /\ calls_ok (answers jr_call) 0 /\ from_journal (answers jr_call) /\
  test_state c81_call /\ In (ct_revision c81_call, Cancun) revisions /\ answered lt_tx lg_hash c81_call Cancun /\ ct_pc c81_call <= zlen (ct_code c81_call) /\ ~ push_data (ct_code c81_call) (ct_pc c81_call) /\
  setting_ok (dr_setting [0xF1]) /\ from_journal (nested (dr_setting [0xF1])) /\
  (exists w m, asks (go_host (ct_rc lt_tx) lt_tx) (message_of (ToVmParameters lg_hash c81_call)) Cancun (ct_code c81_call) (frame_of c81_call) = Some (w, m) /\ msg_gas m = 500) /\
  (exists s', lfvm c81_call 1 = Ok (s', None) /\ ct_gas s' = 10000 - 103 - 30 /\ zlen (w_past (ct_world s')) = 1) /\ test lfvm c81_call = Passed.
Proof.
  split; [exact lt_tx_ok|]. split; [exact lg_hash_word|]. split; [exact (jr_calls 0)|]. split; [exact jr_journal|]. split; [exact (proj1 (proj2 (proj2 C81_case)))|]. split; [cbn; tauto|]. split.
  { intros w m h. vm_compute in h. injection h as <- <-. split; vm_compute; try (split; congruence); try congruence. repeat constructor; congruence. }
  split; [vm_compute; congruence|]. split; [not_data|]. split; [apply dr_setting_ok|]. split; [apply dr_setting_ok|]. split; [eexists; eexists; split; vm_compute; reflexivity|].
  split; [eexists; split; [vm_compute; reflexivity|split; reflexivity]|]. vm_compute. reflexivity.
Qed.
(** a target that forgets that a slot has been accessed, or counts one unit of gas too many, is reported: SLOAD of slot 2 *)
Definition forgetful (s : state) (n : Z) : res (state * option go_error) :=
  do! '(s', e) <- lfvm s n;
  let w := ct_world s' in
  Ok (set_world (mkCtw (w_current w) (w_original w) (w_warm (ct_world s)) (w_transient w) (w_accounts w) (w_warm_accounts w) (w_logs w) (w_past w) (w_future w) (w_destructed w) (w_journal w) (w_hashes w)) s', e).
Definition greedy (s : state) (n : Z) : res (state * option go_error) := do! '(s', e) <- lfvm s n; Ok (set_gas (ct_gas s' - 1) s', e).
Definition c83_sload := rules_state 5 [0x54] 0 10000 [2] [] [].
Example C83_reports : test_state c83_sload /\ test lfvm c83_sload = Passed /\ test forgetful c83_sload = Issue /\ test greedy c83_sload = Issue.
Proof. split; [test_tac|]. split; [vm_compute; reflexivity|]. split; vm_compute; reflexivity. Qed.
(** two behind the end of the code the LFVM target panics, the evmzero target stops, as the rules say *)
Definition c83_behind := rules_state 5 [0x60; 0x58; 0x58] 4 100 [] [] [].
Theorem C83_behind_refuted : test_state c83_behind /\ test lfvm c83_behind = Issue /\ forall v, reach (dr_setting (ct_code c83_behind)) v -> test (evmzero (dr_setting (ct_code c83_behind)) lg_hash v) c83_behind = Passed.
Proof.
  assert (ht : test_state c83_behind) by test_tac. split; [exact ht|]. split; [vm_compute; reflexivity|]. intros v hv. destruct (dr_setting_ok (ct_code c83_behind)) as [h1 h2].
  apply (C83_evmzero lt_tx lg_hash lg_hash lt_tx_ok (fun rs => rs) keep_all (dr_setting (ct_code c83_behind)) v c83_behind Cancun h1 hv eq_refl eq_refl eq_refl h2 ht); [cbn; tauto| |vm_compute; congruence].
  intros w m h. vm_compute in h. discriminate.
Qed.
(** a SSTORE that sets a slot back that counts as not accessed: the targets disagree (C80), but there is no rule for it, so both pass *)
Definition c83_cold : state := mkCt CtRunning 5 false 0 10000 0 [0x55] [7; 3] [] 0xAB 0xCD 0 [1; 2] [9] []
  (mkCtw [(3, 5)] [(3, 7)] [] [] [] [] [] [] [] false [] []).
Theorem C83_cold_refuted : test_state c83_cold /\ test lfvm c83_cold = Passed /\
  ~ exists s', lfvm c83_cold 1 = Ok (s', None) /\ alike_states s' (ct_after c83_cold (evm lt_tx c83_cold Cancun)).
Proof.
  split; [test_tac|]. split; [vm_compute; reflexivity|]. intros (s' & h1 & h2). vm_compute in h1. injection h1 as <-. destruct h2 as [_ h2]. specialize (h2 ltac:(discriminate)). destruct h2 as (_ & _ & _ & _ & h2 & _). vm_compute in h2. discriminate.
Qed.
Print Assumptions C83_lfvm.
Print Assumptions C83_evmzero.
Print Assumptions C83_others.
Print Assumptions C83_exact.
Print Assumptions C83_behind_refuted.
Print Assumptions C83_cold_refuted.

(** ** C84: the comparison of states says that states are alike exactly if they are *)
Theorem C84_worlds : forall a b, WorldEq a b = true <-> same_world a b.
Proof. exact (@world_eq). Qed.
Theorem C84_states : forall a b, zlen (ct_code a) < 2 ^ 16 -> StateEq WorldEq a b = true <-> alike_states a b.
Proof. exact (@driver_eq). Qed.
(** slots that hold zero count as slots that are not there, but not for original values *)
Example C84_case : same_world (mkCtw [(3, 5); (4, 0)] [] [2; 1] [] [] [] [] [] [] false [] []) (mkCtw [(3, 5); (3, 9)] [] [1; 2] [(7, 0)] [] [] [] [] [] false [] [0]) /\
  ~ same_world (mkCtw [] [(4, 0)] [] [] [] [] [] [] [] false [] []) (mkCtw [] [] [] [] [] [] [] [] [] false [] []) /\
  ~ same_world (mkCtw [] [] [] [] [(5, (0, []))] [] [] [] [] false [] []) (mkCtw [] [] [] [] [] [] [] [] [] false [] []).
Proof.
  split; [apply C84_worlds; vm_compute; reflexivity|]. split; intros h; apply C84_worlds in h; vm_compute in h; discriminate.
Qed.
(** codes of 2^16 bytes: all positions count as behind the code *)
Definition c84_long (pc : Z) : state := rules_state 5 (repeat 0 (Z.to_nat 65536)) pc 100 [] [] [].
Theorem C84_size_refuted : StateEq WorldEq (c84_long 1) (c84_long 2) = true /\ ~ alike_states (c84_long 1) (c84_long 2).
Proof.
  split; [vm_compute; reflexivity|]. intros [_ h]. specialize (h ltac:(discriminate)). destruct h as (_ & _ & _ & _ & _ & _ & _ & _ & _ & _ & [[h|[h _]] _]); [discriminate|vm_compute in h; congruence].
Qed.
Print Assumptions C84_worlds.
Print Assumptions C84_states.
Print Assumptions C84_size_refuted.
