(** The transaction processor is an admissible host of the VM. *)
From Verif Require Import Base Host SpecEvm SpecVm Vm Client GoAdapter Floria SpecTx MemFacts ClientFacts.
From Coq Require Import Lia ZArith List Bool.
Import ListNotations.

Section FloriaFacts.
Context {W : Type}.
Variable f : floria W.
Hypothesis Hf : floria_ok f.
Notation ctx := (fl_ctx f).
Notation rc := (x_rc (fl_ctx f)).
Notation WW := (W * rctx)%type.
Let Hc := fo_ctx f Hf.

Lemma s64_small z : 0 <= z < 2 ^ 63 -> s64 z = z.
Proof. intros H. unfold s64. rewrite Z.mod_small by (change (2 ^ 63) with 9223372036854775808 in *; change (2 ^ 64) with 18446744073709551616 in *; lia). destruct (Z.ltb_spec z (2 ^ 63)); lia. Qed.
Lemma byte_odd : Forall is_byte []. Proof. constructor. Qed.

Lemma zero_addr : is_addr 0. Proof. unfold is_addr. lia. Qed.
Lemma no_result_ok gas : 0 <= gas -> result_ok gas no_result.
Proof. intros. unfold result_ok, no_result; cbn [gr_gas_left gr_gas_refund gr_output gr_created]. split; [lia|]; split; [lia|]; split; [constructor|]; split; [reflexivity|apply zero_addr]. Qed.
Lemma plain_result_ok gas left s : 0 <= left <= gas -> result_ok gas (mkCallResult [] left 0 0 s).
Proof. intros. unfold result_ok; cbn [gr_gas_left gr_gas_refund gr_output gr_created]. split; [lia|]; split; [lia|]; split; [constructor|]; split; [reflexivity|apply zero_addr]. Qed.
Lemma state_contract_ok w sender receiver input gas r w' : 0 <= gas -> handleStateContract f w sender receiver input gas = Some (r, w') -> result_ok gas r.
Proof.
  intros Hg. unfold handleStateContract. destruct (negb (receiver =? _)); [discriminate|].
  assert (N : forall x, Some (no_result, w) = Some (r, x) -> result_ok gas r) by (intros x E; injection E as <- _; apply no_result_ok; exact Hg).
  destruct (negb (sender =? _)); [apply N|]. destruct (zlen input <? 4); [apply N|].
  set (sel := be (slice input 0 4)). set (inp := slice input 4 _). unfold executeStateSetBalance, executeStateContractCopyCode, executeStateContractSwapCode, executeStateContractSetStorage, executeStateContractIncNonce, failing, ok.
  unfold callValueTransferGas, createGas, sStoreSetGasEIP2200, createDataGas, memoryGas.
  intros E.
  assert (L : forall x, 0 <= zlen (rc_code rc w x)) by (intros; apply zlen_nonneg).
  repeat match goal with H : Some (if ?b then _ else _) = Some _ |- _ => destruct b eqn:? | H : Some (let '(_, _) := ?x in _) = Some _ |- _ => destruct x end;
    injection E as <- <-; try (apply no_result_ok; exact Hg); apply plain_result_ok;
    repeat match goal with H : (_ <? _) = false |- _ => apply Z.ltb_ge in H end; try lia.
  - pose proof (L (be (slice inp 44 20))). lia.
  - pose proof (L (be (slice inp 44 20))). pose proof (L (be (slice inp 12 20))).
    assert (0 <= (zlen (rc_code rc w (be (slice inp 12 20))) * (200 + 3) + zlen (rc_code rc w (be (slice inp 44 20))) * (200 + 3)) / 2) by (apply Z.div_pos; lia).
    change (200 + 3) with 203 in *. change (2 * 32000) with 64000 in *. clear N L. lia.
Qed.
Lemma precompile_ok rev input a gas r : 0 <= gas < 2 ^ 54 -> handlePrecompiledContract f rev input a gas = Some r -> result_ok gas r.
Proof.
  intros Hg. unfold handlePrecompiledContract. destruct (fl_precompile f rev a) as [c|] eqn:Ec; [|discriminate].
  pose proof (fo_pre_gas f Hf _ _ _ input Ec) as G. rewrite (s64_small _ G). destruct (Z.ltb_spec gas (pre_gas c input)).
  - intros E. injection E as <-. apply no_result_ok. lia.
  - assert (2 ^ 54 < 2 ^ 63) by reflexivity. rewrite s64_small by lia. intros E. injection E as <-. destruct (pre_run c input) as [out|] eqn:Eo.
    + destruct (fo_pre_run f Hf _ _ _ _ _ Ec Eo). unfold result_ok; cbn [gr_gas_left gr_gas_refund gr_output gr_created]. split; [lia|]; split; [lia|]; split; [assumption|]; split; [assumption|apply zero_addr].
    + apply plain_result_ok. lia.
Qed.
Lemma deployed_ok rev g created w r w' gas : is_addr created -> 0 <= go_gas_left g <= gas -> Z.abs (go_gas_refund g) <= 199 * (gas - go_gas_left g) ->
  Forall is_byte (go_output g) -> zlen (go_output g) < 2 ^ 63 -> deployed f rev g created w = (r, w') -> result_ok gas r.
Proof.
  intros Ha G R B L. unfold deployed. intros E.
  repeat match goal with H : (if ?b then _ else _) = _ |- _ => destruct b eqn:? end; injection E as <- <-; try (apply no_result_ok; lia).
  unfold createGasCostPerByte in *. apply Z.ltb_ge in Heqb1. pose proof (zlen_nonneg (go_output g)). unfold result_ok; cbn [gr_gas_left gr_gas_refund gr_output gr_created].
  split; [lia|]; split; [lia|]; split; [assumption|]; split; [assumption|apply Ha].
Qed.
Lemma go_result_ok gas cr g : 0 <= gas -> 0 <= cr_gas_left cr <= gas -> Z.abs (cr_gas_refund cr) <= 199 * (gas - cr_gas_left cr) ->
  Forall is_byte (cr_output cr) -> zlen (cr_output cr) < 2 ^ 63 -> go_result_of cr = inl g ->
  0 <= go_gas_left g <= gas /\ Z.abs (go_gas_refund g) <= 199 * (gas - go_gas_left g) /\ Forall is_byte (go_output g) /\ zlen (go_output g) < 2 ^ 63.
Proof.
  intros Hg A B C D E. unfold go_result_of in E. destruct (cr_status cr); try discriminate E; injection E as <-; cbn [go_gas_left go_gas_refund go_output];
    repeat split; try assumption; try lia; constructor.
Qed.
Lemma call_code_ok w kind p : Forall is_byte (cp_input p) -> Forall is_byte (fst (call_code f w kind p)).
Proof. intros H. unfold call_code. destruct (_ && _); [exact H|]. apply (xo_code _ Hc). Qed.

(** the programs that Call makes: every run is admissible and at the depth of the call, every result within the gas contract *)
Inductive tree_ok (depth : Z) (Q : cresult -> WW -> Prop) : prog WW -> Prop :=
| tok_done : forall r x, Q r x -> tree_ok depth Q (Done r x)
| tok_enter : forall x rev code m k, exec_ok (fl_code_of f) code m -> msg_depth m = depth -> 0 <= msg_gas m ->
    (forall r x, call_ok m r -> tree_ok depth Q (k r x)) -> tree_ok depth Q (Enter x rev code m k).
Lemma created_ok kind s n x h : is_addr (createAddress f kind s n x h).
Proof. destruct kind; cbn [createAddress]; try apply (fo_create2 f Hf); apply (fo_create f Hf). Qed.
Lemma Call_ok r w kind p k Q : params_ok p -> 0 <= r_depth r ->
  (forall res w, match res with Some res => result_ok (cp_gas p) res | None => True end -> tree_ok (r_depth r) Q (k res w)) ->
  tree_ok (r_depth r) Q (Call f r w kind p k).
Proof.
  intros [P1 P2 P3 P4 P5 P6] Hd Hk. unfold Call.
  assert (N : forall w, tree_ok (r_depth r) Q (k (Some no_result) w)) by (intros; apply Hk, no_result_ok; lia).
  destruct (Z.ltb_spec MaxRecursiveDepth (r_depth r)) as [|Hr]; [apply N|]. unfold MaxRecursiveDepth in Hr.
  pose proof (call_code_ok w kind p P4) as Bc. destruct (call_code f w kind p) as [code hash]. cbn [fst] in Bc.
  set (created := if is_create kind then _ else 0). assert (Ac : is_addr created) by (subst created; destruct (is_create kind); [apply created_ok|apply zero_addr]).
  destruct (is_create kind && collision f w created); [apply N|].
  set (w1 := if is_create kind then bump f w (cp_sender p) created else w). set (recipient := if is_create kind then created else cp_recipient p).
  assert (Ar : is_addr recipient) by (subst recipient; destruct (is_create kind); assumption).
  destruct (match kind with GoStaticCall | GoDelegateCall => Some w1 | _ => _ end) as [w2|]; [|apply N].
  destruct (handleStateContract f w2 _ _ _ _) as [[res w3]|] eqn:Es; [apply Hk; apply (state_contract_ok _ _ _ _ _ _ _ (proj1 P6) Es)|].
  destruct (handlePrecompiledContract f _ _ _ _) as [res|] eqn:Ep; [apply Hk; apply (precompile_ok _ _ _ _ _ P6 Ep)|].
  match goal with |- tree_ok _ _ (if ?b then _ else _) => destruct b end; [apply Hk, plain_result_ok; lia|].
  destruct (Z.ltb_spec (2 ^ 32) (zlen code)); [apply Hk; exact I|].
  set (r' := deeper r _).
  assert (E1 : msg_depth (run_message f r' kind p recipient code hash) = r_depth r).
  { cbn [run_message message_of msg_depth p_depth r']. unfold r'. cbn [deeper r_depth]. lia. }
  assert (E2 : msg_gas (run_message f r' kind p recipient code hash) = cp_gas p) by reflexivity.
  apply tok_enter.
  - split; [split|..].
    + cbn [run_message message_of msg_flags p_static]. destruct (r_static r'); unfold EVMC_STATIC; lia.
    + rewrite E1. change (2 ^ 31) with 2147483648. lia.
    + rewrite E2. change (- 2 ^ 63) with (-9223372036854775808). lia.
    + exact Ar.
    + exact P1.
    + exact P4.
    + exact P5.
    + exact P3.
    + rewrite E1. exact Hr.
    + exact Bc.
    + assumption.
    + intros h Eh _. cbn [run_message message_of msg_code_hash p_code_hash] in Eh. destruct (list_eq_dec _ _ _) as [E|]; [|discriminate]. injection Eh as <-. exact E.
  - exact E1.
  - rewrite E2. lia.
  - intros cr x [R1 R2 R3 R4 R5]. rewrite E2 in R1, R2. destruct (go_result_of cr) as [g|e] eqn:Eg; [|apply Hk; exact I].
    destruct (go_result_ok (cp_gas p) cr g ltac:(lia) R1 R2 R3 R4 Eg) as (G1 & G2 & G3 & G4).
    destruct (negb (go_success g)).
    + apply Hk. unfold result_ok; cbn [gr_gas_left gr_gas_refund gr_output gr_created]. split; [lia|]; split; [lia|]; split; [assumption|]; split; [assumption|apply Ac].
    + destruct (is_create kind).
      * destruct (deployed f _ g created (fst x)) as [res w4] eqn:Ed. apply Hk. exact (deployed_ok _ _ _ _ _ _ _ Ac G1 G2 G3 G4 Ed).
      * apply Hk. unfold result_ok; cbn [gr_gas_left gr_gas_refund gr_output gr_created]. split; [lia|]; split; [lia|]; split; [assumption|]; split; [assumption|apply Ac].
Qed.

(** ** The host that the VM sees *)
Lemma byte_firstn n l : Forall is_byte l -> Forall is_byte (firstn n l).
Proof. intros H. apply Forall_forall. intros x Hx. rewrite Forall_forall in H. apply H. rewrite <- (firstn_skipn n l). apply in_or_app. left. exact Hx. Qed.
Lemma byte_skipn n l : Forall is_byte l -> Forall is_byte (skipn n l).
Proof. intros H. apply Forall_forall. intros x Hx. rewrite Forall_forall in H. apply H. rewrite <- (firstn_skipn n l). apply in_or_app. right. exact Hx. Qed.
Lemma go_host_ok tx : tx_ok tx -> host_ok (go_host rc tx).
Proof.
  intros Ht. split; cbn [go_host h_get_storage h_get_transient h_get_balance h_get_code_size h_get_code_hash h_copy_code h_tx_context h_block_hash].
  - apply (xo_storage _ Hc).
  - apply (xo_transient _ Hc).
  - apply (xo_balance _ Hc).
  - intros w a. rewrite (xo_code_size _ Hc). pose proof (xo_code _ Hc w a) as [_ L]. pose proof (zlen_nonneg (rc_code rc w a)). change (2 ^ 64) with 18446744073709551616. change (2 ^ 32) with 4294967296 in L. lia.
  - intros w a. destruct (is_empty rc w a); [unfold is_word; lia|apply (xo_code_hash _ Hc)].
  - intros w a o n Hn. split; [|apply byte_firstn, byte_skipn; apply (xo_code _ Hc)]. unfold zlen. rewrite firstn_length. lia.
  - intros _. exact Ht.
  - apply (xo_block_hash _ Hc).
Qed.
Lemma lift_host_ok (h : tx_context -> host W) tx : (forall r, host_ok (h (tx r))) -> host_ok (lift_host h tx).
Proof.
  intros Hh. split; cbn [lift_host h_get_storage h_get_transient h_get_balance h_get_code_size h_get_code_hash h_copy_code h_tx_context h_block_hash];
    intros x; destruct (Hh (snd x)) as [H1 H2 H3 H4 H5 H6 H7 H8]; auto.
Qed.
Lemma tx_of_ok r : tx_ok (tx_of f r).
Proof. unfold tx_of. apply (fo_block f Hf); [unfold is_addr|unfold is_word]; apply Z.mod_pos_bound; reflexivity. Qed.

Lemma prog_of_tree m (Q : cresult -> WW -> Prop) p : (forall r x, Q r x -> call_ok m r) -> tree_ok (msg_depth m) Q p -> prog_ok (fl_code_of f) m p.
Proof.
  intros HQ. induction 1 as [r x Hq|x rev code m' k He Hd Hg Hk IH]; [apply ok_done; eapply HQ; exact Hq|].
  apply ok_enter; auto.
Qed.
Lemma cresult_ok gas res : 0 <= gas -> match res with Some r => result_ok gas r | None => True end ->
  0 <= cr_gas_left (cresult_of res) <= gas /\ Z.abs (cr_gas_refund (cresult_of res)) <= 199 * (gas - cr_gas_left (cresult_of res)) /\
  Forall is_byte (cr_output (cresult_of res)) /\ zlen (cr_output (cresult_of res)) < 2 ^ 63 /\ is_addr (cr_create_address (cresult_of res)).
Proof.
  intros Hg. destruct res as [r|]; cbn [cresult_of cr_gas_left cr_gas_refund cr_output cr_create_address]; [intros X; exact X|].
  intros _. split; [lia|]; split; [lia|]; split; [constructor|]; split; [reflexivity|apply zero_addr].
Qed.
Lemma message_params m : msg_ok m -> 0 <= msg_gas m -> params_ok (call_params_of m).
Proof. intros [M1 M2 M3 M4 M5 M6 M7 M8] Hg. split; cbn [call_params_of cp_sender cp_recipient cp_value cp_input cp_gas]; try assumption. lia. Qed.

Section Machine.
Variables (fallback : message -> cresult) (tick : nat -> Z) (bufs : nat -> list (option Z)) .
Hypothesis Hr : rest_ok fallback bufs.
Notation mach := (machine f fallback tick bufs).

Lemma machine_ok : setting_ok mach.
Proof.
  split; cbn [machine g_host g_keccak g_bufs g_handler g_code_of].
  - apply lift_host_ok. intros r. apply go_host_ok, tx_of_ok.
  - apply (fo_keccak f Hf).
  - apply (ro_bufs _ _ Hr).
  - intros [w r] m Hm Hg Hd. unfold handler. destruct (Z.eqb_spec (r_depth r) (msg_depth m)) as [E|].
    + apply prog_of_tree with (Q := fun cr _ => call_ok m cr); [auto|]. rewrite <- E.
      apply Call_ok; [apply message_params; assumption|lia|]. intros res w' Hres. apply tok_done.
      destruct (cresult_ok (msg_gas m) res Hg Hres) as (A1 & A2 & A3 & A4 & A5). split; assumption.
    + apply ok_done. apply (ro_fallback _ _ Hr); assumption.
Qed.

Lemma tree_run depth Q p : tree_ok depth Q p -> forall v, reach mach v ->
  exists v', run_prog (Execute mach) p v = Ok (fst (play (reference mach) p), snd (play (reference mach) p), v') /\ reach mach v' /\
    Q (fst (play (reference mach) p)) (snd (play (reference mach) p)).
Proof.
  induction 1 as [r x Hq|x rev code m' k He Hd Hg Hk IH]; intros v Hv; cbn [run_prog play]; [exists v; auto|].
  destruct (execute_ok mach machine_ok v x rev code m' (reach_ok mach machine_ok v Hv) He) as (v1 & E & _ & Hc1). rewrite E. cbn [rbind].
  assert (Hv1 : reach mach v1) by (eapply reach_execute; eassumption).
  destruct (reference mach x rev code m') as [r x']. cbn [fst snd] in *. apply (IH r x' (Hc1 Hg) v1 Hv1).
Qed.
End Machine.
End FloriaFacts.
