(** C56 - C67: transactions on the floria processor. *)
From Verif Require Import Base Host SpecEvm SpecVm Vm Client GoAdapter Floria SpecTx ClientFacts TxFacts TxFacts2 TxFacts3 TxFacts4 TxFacts5 TxFacts6 TxFacts7 Toy Ledger.
From Coq Require Import Lia ZArith List Bool.
Import ListNotations.

(** ** C56 *)
(** [runs_to f w block t o w']: on every VM that was created and used through its API, whatever its caches, options, stack buffers and
    clock, Run returns [o], leaves the state [w'], and the VM can be used again *)
Theorem C56_run_total : forall W (f : floria W), floria_ok f -> forall w block t, transaction_ok t ->
  (exists o w', runs_to f w block t o w') /\
  (forall fallback tick bufs v o w' v', ready f fallback tick bufs v -> processor_run f fallback tick bufs v w block t = Ok (o, w', v') ->
     runs_to f w block t o w' /\ ready f fallback tick bufs v').
Proof. exact (@run_total). Qed.
Theorem C56_run_unique : forall W (f : floria W) w block t o1 w1 o2 w2, runs_to f w block t o1 w1 -> runs_to f w block t o2 w2 -> o1 = o2 /\ w1 = w2.
Proof. exact (@runs_unique). Qed.
Theorem C56_call_total : forall W (f : floria W), floria_ok f -> forall w r kind p, params_ok p -> 0 <= r_depth r ->
  exists res w', calls_to f w r kind p res w' /\ match res with Some res => result_ok (cp_gas p) res | None => True end.
Proof. exact (@call_total). Qed.
Ltac lg_go := eexists; split; [apply lg_run; [lg_tx_ok|vm_compute; reflexivity]|vm_compute; repeat split].
(** a call of a contract that stores 7 at 5 *)
Example C56_case :
  floria_ok (lg_floria false) /\ transaction_ok (lg_tx 1 (Some 16) 3 10 60000 2 [1; 0]) /\
  exists w', runs_to (lg_floria false) lg_start 20 (lg_tx 1 (Some 16) 3 10 60000 2 [1; 0]) (Receipt (mkReceipt true [] None 44813 [])) w' /\
    lg_storage w' 16 5 = 7 /\ lg_balance w' 1 = 910364 /\ lg_balance w' 16 = 10 /\ lg_nonce w' 1 = 4.
Proof. split; [apply lg_floria_ok|]. split; [lg_tx_ok|]. lg_go. Qed.
Print Assumptions C56_run_total.
Print Assumptions C56_run_unique.
Print Assumptions C56_call_total.

(** ** C57 *)
(** not acceptable: nothing happens *)
Theorem C57_refused : forall W (f : floria W), floria_ok f -> forall w block t, transaction_ok t -> sensible t ->
  ~ acceptable f w t -> runs_to f w block t (Receipt (mkReceipt false [] None 0 [])) w.
Proof. exact (@unacceptable_run). Qed.
(** too little gas: all gas is charged *)
Theorem C57_underpaid : forall W (f : floria W), floria_ok f -> forall w block t, transaction_ok t -> 0 <= t_gas_limit t ->
  acceptable f w t -> t_gas_limit t < intrinsic t -> runs_to f w block t (Receipt (mkReceipt false [] None (t_gas_limit t) [])) (pay f w t).
Proof. exact (@underpaid_run). Qed.
(** init codes of more than 49152 bytes, since Shanghai: all gas is paid for, though none is reported *)
Theorem C57_oversized : forall W (f : floria W), floria_ok f -> forall w block t, transaction_ok t -> 0 <= t_gas_limit t ->
  acceptable f w t -> intrinsic t <= t_gas_limit t -> oversized (fl_rev f block) t -> runs_to f w block t (Receipt (mkReceipt false [] None 0 [])) (pay f w t).
Proof. exact (@oversized_run). Qed.
(** wrong nonce; a sender that is a contract; too little money; too little gas, where the nonce stays what it was: the same transaction is acceptable again *)
Example C57_case :
  runs_to (lg_floria false) lg_start 20 (lg_tx 1 (Some 2) 4 10 30000 2 []) (Receipt (mkReceipt false [] None 0 [])) lg_start /\
  runs_to (lg_floria false) lg_start 20 (lg_tx 16 (Some 2) 0 0 30000 0 []) (Receipt (mkReceipt false [] None 0 [])) lg_start /\
  runs_to (lg_floria false) lg_start 20 (lg_tx 2 (Some 1) 9 0 30000 1 []) (Receipt (mkReceipt false [] None 0 [])) lg_start /\
  exists w', runs_to (lg_floria false) lg_start 20 (lg_tx 1 (Some 2) 3 10 20999 2 []) (Receipt (mkReceipt false [] None 20999 [])) w' /\
    lg_balance w' 1 = 958002 /\ lg_nonce w' 1 = 3 /\ acceptable (lg_floria false) w' (lg_tx 1 (Some 2) 3 10 20999 2 []).
Proof.
  split; [apply lg_run; [lg_tx_ok|reflexivity]|]. split; [apply lg_run; [lg_tx_ok|reflexivity]|]. split; [apply lg_run; [lg_tx_ok|reflexivity]|].
  eexists. split; [apply lg_run; [lg_tx_ok|vm_compute; reflexivity]|]. split; [vm_compute; reflexivity|]. split; [vm_compute; reflexivity|].
  split; [reflexivity|reflexivity|right; vm_compute; reflexivity|vm_compute; discriminate].
Qed.
Lemma long_code : zlen (repeat 0 (Z.to_nat 49153)) = 49153. Proof. vm_compute. reflexivity. Qed.
Example C57_oversized_case : exists w', runs_to (lg_floria false) lg_start 20 (lg_tx 1 None 3 0 300000 2 (repeat 0 (Z.to_nat 49153))) (Receipt (mkReceipt false [] None 0 [])) w' /\
  lg_balance w' 1 = 400000 /\ lg_nonce w' 1 = 3.
Proof.
  exists (pay (lg_floria false) lg_start (lg_tx 1 None 3 0 300000 2 (repeat 0 (Z.to_nat 49153)))). split; [|vm_compute; auto].
  apply C57_oversized.
  - apply lg_floria_ok.
  - split; cbn [lg_tx t_sender t_recipient t_nonce t_input t_value t_gas_limit t_gas_price]; try discriminate; try (unfold is_addr, is_word; lia).
    + apply Forall_forall. intros b Hb. apply repeat_spec in Hb. subst b. unfold is_byte. lia.
    + rewrite long_code. reflexivity.
  - cbn. lia.
  - split; [reflexivity|reflexivity|right; vm_compute; reflexivity|vm_compute; discriminate].
  - vm_compute. discriminate.
  - split; [reflexivity|]. split; [reflexivity|]. cbn [lg_tx t_input]. rewrite long_code. reflexivity.
Qed.
Print Assumptions C57_refused.
Print Assumptions C57_underpaid.
Print Assumptions C57_oversized.

(** ** C58 *)
(** all other transactions: the call is made in the state [started], its result is billed *)
Theorem C58_accepted : forall W (f : floria W), floria_ok f -> forall w block t, transaction_ok t -> acceptable f w t -> intrinsic t <= t_gas_limit t -> ~ oversized (fl_rev f block) t ->
  exists res w1, tx_calls f w block t res w1 /\ match res with Some res => result_ok (t_gas_limit t - intrinsic t) res | None => True end /\
    runs_to f w block t (fst (tx_result f (fl_rev f block) t res w1)) (snd (tx_result f (fl_rev f block) t res w1)).
Proof. exact (@accepted_run). Qed.
Theorem C58_run_is_call : forall W (f : floria W), floria_ok f -> forall w block t res w1, transaction_ok t -> acceptable f w t -> intrinsic t <= t_gas_limit t ->
  ~ oversized (fl_rev f block) t -> tx_calls f w block t res w1 ->
  runs_to f w block t (fst (tx_result f (fl_rev f block) t res w1)) (snd (tx_result f (fl_rev f block) t res w1)).
Proof. exact (@run_is_call). Qed.
Theorem C58_gas_used : forall W (f : floria W), floria_ok f -> forall w block t o w', transaction_ok t -> acceptable f w t -> intrinsic t <= t_gas_limit t ->
  ~ oversized (fl_rev f block) t -> runs_to f w block t o w' ->
  intrinsic t - intrinsic t / (if rev_ge (fl_rev f block) London then 5 else 2) <= rt_gas_used (receipt_of o) /\
  (rt_success (receipt_of o) = false -> intrinsic t <= rt_gas_used (receipt_of o) <= t_gas_limit t) /\
  (forall res w1, tx_calls f w block t (Some res) w1 -> 0 <= gr_gas_refund res -> rt_gas_used (receipt_of o) <= t_gas_limit t) /\
  rt_gas_used (receipt_of o) <= 200 * t_gas_limit t.
Proof. exact (@gas_used_bounds). Qed.
(** the transaction of C56 meets the conditions; a tenth of the gas that is left (60000 - 21020 - 22106) is charged as well *)
Example C58_case : let t := lg_tx 1 (Some 16) 3 10 60000 2 [1; 0] in
  acceptable (lg_floria false) lg_start t /\ intrinsic t = 21020 /\ ~ oversized (fl_rev (lg_floria false) 20) t /\
  exists w1, tx_calls (lg_floria false) lg_start 20 t (Some (mkCallResult [] 16874 0 0 true)) w1 /\ billed Cancun t (mkCallResult [] 16874 0 0 true) = 60000 - 16874 + 1687.
Proof.
  cbv zeta. split; [split; [reflexivity|reflexivity|right; vm_compute; reflexivity|vm_compute; discriminate]|]. split; [reflexivity|]. split; [intros (_ & X & _); discriminate X|].
  eexists. split; [|reflexivity]. unfold tx_calls. apply lg_call; [|cbn; lia|vm_compute; reflexivity].
  split; cbn [cp_sender cp_recipient cp_value cp_input cp_gas lg_tx t_sender t_recipient t_value t_input]; try (unfold is_addr, is_word; lia); [bytes|reflexivity|vm_compute; split; congruence].
Qed.
Print Assumptions C58_accepted.
Print Assumptions C58_run_is_call.
Print Assumptions C58_gas_used.

(** ** C59 *)
(** [supply ctx total]: total is the sum of all balances, and SELFDESTRUCT does not increase it *)
Theorem C59_supply : forall W (f : floria W), floria_ok f -> accounts_ok (fl_ctx f) -> addresses_ok f -> forall total, supply (fl_ctx f) total ->
  forall w block t o w', transaction_ok t -> sensible t -> t_sender t <> DriverAddress -> rc_code (x_rc (fl_ctx f)) w DriverAddress = [] -> total w < 2 ^ 256 ->
  runs_to f w block t o w' -> rt_gas_used (receipt_of o) <= t_gas_limit t -> total w' <= total w - t_gas_price t * rt_gas_used (receipt_of o).
Proof. exact (@supply_bounded). Qed.
(** if SELFDESTRUCT never loses money, what disappears is the price of the gas *)
Theorem C59_supply_exact : forall W (f : floria W), floria_ok f -> accounts_ok (fl_ctx f) -> addresses_ok f -> forall total, supply (fl_ctx f) total ->
  forall w block t o w', (forall w a b, total (snd (rc_selfdestruct (x_rc (fl_ctx f)) w a b)) = total w) ->
  transaction_ok t -> sensible t -> t_sender t <> DriverAddress -> rc_code (x_rc (fl_ctx f)) w DriverAddress = [] -> total w < 2 ^ 256 -> ~ oversized (fl_rev f block) t ->
  runs_to f w block t o w' -> rt_gas_used (receipt_of o) <= t_gas_limit t -> total w' = total w - t_gas_price t * rt_gas_used (receipt_of o).
Proof. exact (@supply_exact). Qed.
Example C59_case :
  accounts_ok (lg_context true) /\ addresses_ok (lg_floria true) /\ supply (lg_context true) lg_total /\ (forall w a b, lg_total (snd (rc_selfdestruct (lg_rc true) w a b)) = lg_total w) /\
  lg_total lg_start = 1000500 /\
  exists w', runs_to (lg_floria true) lg_start 20 (lg_tx 1 (Some 16) 3 10 60000 2 [1; 0]) (Receipt (mkReceipt true [] None 44813 [])) w' /\ lg_total w' = 1000500 - 2 * 44813.
Proof. split; [apply lg_accounts|]. split; [apply lg_addresses|]. split; [apply lg_supply|]. split; [apply lg_supply_exact|]. split; [reflexivity|]. lg_go. Qed.
(** [sensible] is needed: the price of 2^15 gas at 2^241 each is 2^256, that is 0; an account that has nothing gets the gas for free and is paid for what it does not use *)
Theorem C59_wrapping_price_refuted : exists t o w', transaction_ok t /\ 0 <= t_gas_limit t /\ lg_balance lg_start (t_sender t) = 0 /\
  runs_to (lg_floria true) lg_start 20 t o w' /\ rt_gas_used (receipt_of o) <= t_gas_limit t /\ lg_total lg_start < 2 ^ 20 /\ 2 ^ 254 < lg_total w' /\ 2 ^ 254 < lg_balance w' (t_sender t).
Proof.
  exists (lg_tx 7 (Some 2) 0 0 32768 (2 ^ 241) []). eexists _, _. split; [lg_tx_ok|]. split; [cbn; lia|]. split; [reflexivity|].
  split; [apply lg_run; [lg_tx_ok|vm_compute; reflexivity]|]. repeat split; vm_compute; congruence.
Qed.
(** so is the bound on the gas used: refunds of calls that revert count (C46), so a contract can make the refund of a transaction negative.
    Contract 19 clears a slot and calls 20 twenty times, which sets the slot and reverts; the gas left is negative, as a uint64 it is huge, and the sender gets its price *)
Definition lg_attack : ledger := mkLedger [(1, 1000000); (2, 500)] [(1, 3); (2, 9)]
  [(19, [0x60; 0; 0x60; 5; 0x55] ++ concat (repeat [0x60; 0; 0x60; 0; 0x60; 0; 0x60; 0; 0x60; 20; 0x5A; 0xF4; 0x50] 20)); (20, [0x60; 1; 0x60; 5; 0x55; 0x60; 0; 0x60; 0; 0xFD])]
  [(slot 19 5, 9)] [] [] [(slot 19 5, 9)].
Theorem C59_negative_refund_refuted : exists t o w', transaction_ok t /\ sensible t /\ acceptable (lg_floria true) lg_attack t /\
  runs_to (lg_floria true) lg_attack 20 t o w' /\ rt_success (receipt_of o) = true /\ rt_gas_used (receipt_of o) = 127013 /\ t_gas_limit t = 60000 /\
  lg_total lg_attack = 1000500 /\ lg_total w' = 1000500 - 2 * 127013 + 2 * 2 ^ 64 /\ 2 ^ 64 < lg_balance w' (t_sender t).
Proof.
  exists (lg_tx 1 (Some 19) 3 0 60000 2 []). eexists _, _. split; [lg_tx_ok|]. split; [split; [cbn; lia|reflexivity]|]. split; [split; [reflexivity|reflexivity|right; vm_compute; reflexivity|vm_compute; discriminate]|].
  split; [apply lg_run; [lg_tx_ok|vm_compute; reflexivity]|]. repeat split; vm_compute; congruence.
Qed.
Print Assumptions C59_negative_refund_refuted.
Print Assumptions C59_supply.
Print Assumptions C59_supply_exact.
Print Assumptions C59_wrapping_price_refuted.

(** ** C60 *)
(** a transfer to an account that is not a contract *)
Theorem C60_transfer : forall W (f : floria W), floria_ok f -> accounts_ok (fl_ctx f) ->
  let balance := rc_balance (x_rc (fl_ctx f)) in let nonce := rc_nonce (x_rc (fl_ctx f)) in let code := rc_code (x_rc (fl_ctx f)) in
  forall w block t a, transaction_ok t -> acceptable f w t -> intrinsic t <= t_gas_limit t -> t_recipient t = Some a ->
  a <> StateContractAddress -> fl_precompile f (fl_rev f block) a = None -> code w a = [] ->
  t_gas_price t * t_gas_limit t + t_value t <= balance w (t_sender t) -> t_sender t = a \/ balance w a + t_value t < 2 ^ 256 ->
  exists w', runs_to f w block t (Receipt (mkReceipt true [] None (transfer_gas t) (x_logs (fl_ctx f) w'))) w' /\
    (forall b, balance w' b = balance w b - (if b =? t_sender t then t_value t + t_gas_price t * transfer_gas t else 0) + (if b =? a then t_value t else 0)) /\
    (forall b, nonce w' b = if b =? t_sender t then t_nonce t + 1 else nonce w b) /\
    (forall b, code w' b = code w b).
Proof. exact (@plain_transfer). Qed.
(** the sender cannot pay the value: all gas is charged *)
Theorem C60_unfunded : forall W (f : floria W), floria_ok f -> accounts_ok (fl_ctx f) ->
  let balance := rc_balance (x_rc (fl_ctx f)) in let nonce := rc_nonce (x_rc (fl_ctx f)) in let code := rc_code (x_rc (fl_ctx f)) in
  forall w block t a, transaction_ok t -> acceptable f w t -> intrinsic t <= t_gas_limit t -> t_recipient t = Some a ->
  balance w (t_sender t) < t_gas_price t * t_gas_limit t + t_value t ->
  exists w', runs_to f w block t (Receipt (mkReceipt false [] None (t_gas_limit t) [])) w' /\
    (forall b, balance w' b = balance w b - (if b =? t_sender t then t_gas_price t * t_gas_limit t else 0)) /\
    (forall b, nonce w' b = if b =? t_sender t then t_nonce t + 1 else nonce w b) /\ (forall b, code w' b = code w b).
Proof. exact (@unfunded_transfer). Qed.
Example C60_case :
  (exists w', runs_to (lg_floria false) lg_start 20 (lg_tx 1 (Some 2) 3 10 30000 2 []) (Receipt (mkReceipt true [] None 21900 [])) w' /\
     lg_balance w' 1 = 1000000 - 10 - 2 * 21900 /\ lg_balance w' 2 = 510 /\ lg_nonce w' 1 = 4 /\ lg_nonce w' 2 = 9) /\
  (exists w', runs_to (lg_floria false) lg_start 20 (lg_tx 1 (Some 2) 3 999999 30000 2 []) (Receipt (mkReceipt false [] None 30000 [])) w' /\
     lg_balance w' 1 = 940000 /\ lg_balance w' 2 = 500 /\ lg_nonce w' 1 = 4).
Proof. split; lg_go. Qed.
Print Assumptions C60_transfer.
Print Assumptions C60_unfunded.

(** ** C61 *)
(** [moved f w kind p = Some w1]: the value of the call can be transferred, and [w1] is the state after that *)
Theorem C61_call : forall W (f : floria W), floria_ok f -> forall w r kind p w1 cr x fallback tick bufs,
  params_ok p -> 0 <= r_depth r <= 1024 -> is_create kind = false -> moved f w kind p = Some w1 ->
  cp_recipient p <> StateContractAddress -> fl_precompile f (fl_rev f (r_block r)) (cp_recipient p) = None ->
  (kind = GoCall -> x_account_exists (fl_ctx f) w1 (cp_recipient p) = true) ->
  let code := rc_code (x_rc (fl_ctx f)) w (source kind p) in
  reference (machine f fallback tick bufs) (w1, mkR (r_depth r + 1) (call_static r kind) (r_block r) (r_origin r) (r_price r)) (fl_rev f (r_block r)) code
    (call_message f r kind p code (rc_code_hash (x_rc (fl_ctx f)) w (source kind p))) = (cr, x) ->
  calls_to f w r kind p (call_answer cr 0) (match cr_status cr with EVMC_SUCCESS => fst x | _ => w end).
Proof. exact (@call_runs). Qed.
Theorem C61_no_code : forall W (f : floria W), floria_ok f -> forall w r kind p w1, params_ok p -> 0 <= r_depth r <= 1024 -> is_create kind = false -> moved f w kind p = Some w1 ->
  cp_recipient p <> StateContractAddress -> fl_precompile f (fl_rev f (r_block r)) (cp_recipient p) = None -> rc_code (x_rc (fl_ctx f)) w (source kind p) = [] ->
  calls_to f w r kind p (Some (mkCallResult [] (cp_gas p) 0 0 true)) w1.
Proof. exact (@call_no_code). Qed.
Theorem C61_unfunded : forall W (f : floria W), floria_ok f -> forall w r kind p, params_ok p -> 0 <= r_depth r -> is_create kind = false ->
  moved f w kind p = None -> calls_to f w r kind p (Some (mkCallResult [] 0 0 0 false)) w.
Proof. exact (@call_unfunded). Qed.
Theorem C61_too_deep : forall W (f : floria W), floria_ok f -> forall w r kind p, params_ok p -> 1024 < r_depth r -> calls_to f w r kind p (Some (mkCallResult [] 0 0 0 false)) w.
Proof. exact (@call_too_deep). Qed.
(** a call that fails, or returns an error, changes nothing *)
Theorem C61_failed : forall W (f : floria W), floria_ok f -> forall w r kind p res w', params_ok p -> 0 <= r_depth r -> is_create kind = false ->
  cp_recipient p <> StateContractAddress -> fl_precompile f (fl_rev f (r_block r)) (cp_recipient p) = None ->
  calls_to f w r kind p res w' -> match res with Some res => gr_success res = false | None => True end -> w' = w.
Proof. exact (@failed_call_undone). Qed.
Ltac lg_params_ok := split; cbn [cp_sender cp_recipient cp_value cp_input cp_gas]; first [bytes | unfold is_addr, is_word; lia | reflexivity | vm_compute; split; congruence].
(** a contract that stores and succeeds, the same code delegated to, one that stores and fails *)
Example C61_case : let r := mkR 3 false 20 1 2 in
  (exists w', calls_to (lg_floria false) lg_start r GoCall (mkCallParams 1 16 10 [1] 30000 0 0) (Some (mkCallResult [] 7894 0 0 true)) w' /\
     lg_storage w' 16 5 = 7 /\ lg_balance w' 16 = 10) /\
  (exists w', calls_to (lg_floria false) lg_start r GoDelegateCall (mkCallParams 1 2 10 [1] 30000 0 16) (Some (mkCallResult [] 7894 0 0 true)) w' /\
     lg_storage w' 2 5 = 7 /\ lg_storage w' 16 5 = 0 /\ lg_balance w' 16 = 0) /\
  calls_to (lg_floria false) lg_start r GoCall (mkCallParams 1 18 10 [1] 30000 0 0) (Some (mkCallResult [] 0 0 0 false)) lg_start.
Proof.
  cbv zeta. split; [|split]; [eexists; split; [apply lg_call; [lg_params_ok|cbn; lia|vm_compute; reflexivity]|vm_compute; repeat split] ..|apply lg_call; [lg_params_ok|cbn; lia|vm_compute; reflexivity]].
Qed.
Print Assumptions C61_call.
Print Assumptions C61_no_code.
Print Assumptions C61_unfunded.
Print Assumptions C61_too_deep.
Print Assumptions C61_failed.

(** ** C62 *)
(** static calls preserve everything that accesses of accounts and slots preserve *)
Theorem C62_static : forall W (f : floria W), floria_ok f -> forall P w r p res w', still f P -> params_ok p -> 0 <= r_depth r -> cp_sender p <> DriverAddress ->
  P w -> calls_to f w r GoStaticCall p res w' -> P w'.
Proof. exact (@static_call_still). Qed.
(** for instance: all accounts, the storage, the logs *)
Example C62_case : forall w0, lg_code w0 DriverAddress = [] ->
  still (lg_floria false) (fun w => l_balance w = l_balance w0 /\ l_nonce w = l_nonce w0 /\ l_code w = l_code w0 /\ l_store w = l_store w0 /\ l_logs w = l_logs w0).
Proof.
  intros w0 H0. split.
  - intros w a H. exact H.
  - intros w a k H. exact H.
  - intros w (_ & _ & H & _). cbn. unfold lg_code in *. rewrite H. exact H0.
Qed.
(** the contract that stores cannot in a static call *)
Example C62_refused : calls_to (lg_floria false) lg_start (mkR 3 false 20 1 2) GoStaticCall (mkCallParams 1 16 0 [1] 30000 0 0) (Some (mkCallResult [] 0 0 0 false)) lg_start.
Proof. apply lg_call; [lg_params_ok|cbn; lia|vm_compute; reflexivity]. Qed.
Print Assumptions C62_static.

(** ** C63 *)
(** accounts other than the sender's that are no contracts and have been used *)
Theorem C63_others : forall W (f : floria W), floria_ok f -> accounts_ok (fl_ctx f) -> addresses_ok f ->
  let balance := rc_balance (x_rc (fl_ctx f)) in let nonce := rc_nonce (x_rc (fl_ctx f)) in let code := rc_code (x_rc (fl_ctx f)) in
  forall w block t o w' a, transaction_ok t -> sensible t -> t_sender t <> DriverAddress -> code w DriverAddress = [] ->
  a <> t_sender t -> code w a = [] -> nonce w a <> 0 -> runs_to f w block t o w' ->
  code w' a = [] /\ nonce w' a = nonce w a /\ balance w a <= balance w' a.
Proof. exact (@others_safe). Qed.
(** what the sender pays *)
Theorem C63_sender : forall W (f : floria W), floria_ok f -> accounts_ok (fl_ctx f) -> addresses_ok f ->
  let balance := rc_balance (x_rc (fl_ctx f)) in let code := rc_code (x_rc (fl_ctx f)) in
  forall total w block t o w', supply (fl_ctx f) total -> total w < 2 ^ 256 -> transaction_ok t -> acceptable f w t -> intrinsic t <= t_gas_limit t -> ~ oversized (fl_rev f block) t ->
  t_sender t <> DriverAddress -> code w DriverAddress = [] -> code w (t_sender t) = [] ->
  (t_recipient t = None -> ~ taken f (started f (fl_rev f block) w t) (fl_create f (t_sender t) (t_nonce t))) ->
  runs_to f w block t o w' -> rt_gas_used (receipt_of o) <= t_gas_limit t ->
  balance w (t_sender t) - t_value t - t_gas_price t * rt_gas_used (receipt_of o) <= balance w' (t_sender t).
Proof. exact (@sender_pays_at_most). Qed.
(** account 2 during a transaction of account 1 that destroys a contract *)
Example C63_case : lg_code lg_start 2 = [] /\ lg_nonce lg_start 2 = 9 /\ lg_code lg_start DriverAddress = [] /\ lg_code lg_start 1 = [] /\
  exists w', runs_to (lg_floria false) lg_start 20 (lg_tx 1 (Some 17) 3 10 60000 2 []) (Receipt (mkReceipt true [] None 31742 [])) w' /\
    lg_balance w' 2 = 500 /\ lg_balance w' 17 = 0 /\ lg_balance w' 1 = 1000000 - 2 * 31742.
Proof. do 4 (split; [reflexivity|]). lg_go. Qed.
Print Assumptions C63_others.
Print Assumptions C63_sender.

(** ** C64 *)
(** everyone but the driver is refused *)
Theorem C64_refused : forall W (f : floria W), floria_ok f -> forall w r kind p w1, params_ok p -> 0 <= r_depth r <= 1024 -> is_create kind = false -> moved f w kind p = Some w1 ->
  cp_recipient p = StateContractAddress -> cp_sender p <> DriverAddress -> calls_to f w r kind p (Some (mkCallResult [] 0 0 0 false)) w1.
Proof. exact (@state_contract_refuses). Qed.
(** the methods: five names, of which the first four bytes of the hash (all different) select one *)
Theorem C64_methods : forall W (f : floria W), floria_ok f -> forall w r kind p w1 sel args m,
  params_ok p -> 0 <= r_depth r <= 1024 -> is_create kind = false -> moved f w kind p = Some w1 ->
  cp_recipient p = StateContractAddress -> cp_sender p = DriverAddress -> NoDup (map (selector f) method_names) ->
  cp_input p = sel ++ args -> zlen sel = 4 -> be sel = selector f (method_name m) -> encodes args m ->
  (method_price f w1 m <= cp_gas p -> method_allowed m -> calls_to f w r kind p (Some (mkCallResult [] (cp_gas p - method_price f w1 m) 0 0 true)) (method_effect f w1 m)) /\
  (cp_gas p < method_price f w1 m \/ ~ method_allowed m -> calls_to f w r kind p (Some (mkCallResult [] 0 0 0 false)) w1).
Proof. exact (@state_contract_serves). Qed.
Theorem C64_unknown : forall W (f : floria W), floria_ok f -> forall w r kind p w1, params_ok p -> 0 <= r_depth r <= 1024 -> is_create kind = false -> moved f w kind p = Some w1 ->
  cp_recipient p = StateContractAddress -> cp_sender p = DriverAddress ->
  (forall sel args m, cp_input p = sel ++ args -> zlen sel = 4 -> be sel = selector f (method_name m) -> ~ encodes args m) ->
  calls_to f w r kind p (Some (mkCallResult [] 0 0 0 false)) w1.
Proof. exact (@state_contract_unknown). Qed.
(** the two addresses *)
Example C64_addresses : DriverAddress = 0xd100a01e00000000000000000000000000000000 /\ StateContractAddress = 0xd100ec0000000000000000000000000000000000.
Proof. split; reflexivity. Qed.
(** setBalance(2, 77) *)
Definition set_balance_input : list Z := map (fun i => selector (lg_floria false) (method_name (SetBalance 0 0)) / 256 ^ (3 - i) mod 256) [0; 1; 2; 3] ++ repeat 0 31 ++ [2] ++ repeat 0 31 ++ [77].
Example C64_case : NoDup (map (selector (lg_floria false)) method_names) /\
  (exists w', calls_to (lg_floria false) lg_start (mkR 0 false 20 1 2) GoCall (mkCallParams DriverAddress StateContractAddress 0 set_balance_input 10000 0 0) (Some (mkCallResult [] 1000 0 0 true)) w' /\
     lg_balance w' 2 = 77 /\ lg_balance w' 1 = 1000000) /\
  calls_to (lg_floria false) lg_start (mkR 0 false 20 1 2) GoCall (mkCallParams 1 StateContractAddress 0 set_balance_input 10000 0 0) (Some (mkCallResult [] 0 0 0 false)) lg_start /\
  encodes (repeat 0 31 ++ [2] ++ repeat 0 31 ++ [77]) (SetBalance 2 77).
Proof.
  split. { repeat (constructor; [vm_compute; intuition congruence|]). constructor. }
  split. { eexists. split; [apply lg_call; [|cbn; lia|vm_compute; reflexivity]|vm_compute; repeat split]. split; cbn [cp_sender cp_recipient cp_value cp_input cp_gas]; try (split; [cbv; discriminate|reflexivity]); [apply forallb_byte; vm_compute; reflexivity|reflexivity]. }
  split. { apply lg_call; [|cbn; lia|vm_compute; reflexivity]. split; cbn [cp_sender cp_recipient cp_value cp_input cp_gas]; try (split; [cbv; discriminate|reflexivity]); [apply forallb_byte; vm_compute; reflexivity|reflexivity]. }
  exists (repeat 0 12 ++ repeat 0 19 ++ [2]), (repeat 0 31 ++ [77]). split; [reflexivity|]. split; [|split; reflexivity]. exists (repeat 0 12), (repeat 0 19 ++ [2]). repeat split.
Qed.
Print Assumptions C64_refused.
Print Assumptions C64_methods.
Print Assumptions C64_unknown.

(** ** C65 *)
(** the address is taken: nothing happens, and all gas is lost *)
Theorem C65_taken : forall W (f : floria W), floria_ok f -> forall w r kind p, params_ok p -> 0 <= r_depth r -> is_create kind = true -> cp_recipient p = 0 ->
  taken f w (new_address f w kind p) -> calls_to f w r kind p (Some (mkCallResult [] 0 0 0 false)) w.
Proof. exact (@create_taken). Qed.
Theorem C65_unfunded : forall W (f : floria W), floria_ok f -> forall w r kind p, params_ok p -> 0 <= r_depth r <= 1024 -> is_create kind = true -> cp_recipient p = 0 ->
  ~ taken f w (new_address f w kind p) ->
  transferred f (registered f w (cp_sender p) (new_address f w kind p)) (cp_value p) (cp_sender p) (new_address f w kind p) = None ->
  calls_to f w r kind p (Some (mkCallResult [] 0 0 0 false)) (registered f w (cp_sender p) (new_address f w kind p)).
Proof. exact (@create_unfunded). Qed.
(** otherwise the init code is run *)
Theorem C65_creation : forall W (f : floria W), floria_ok f -> forall w r kind p w1 cr x fallback tick bufs,
  params_ok p -> 0 <= r_depth r <= 1024 -> is_create kind = true -> cp_recipient p = 0 ->
  let new := new_address f w kind p in
  let w0 := registered f w (cp_sender p) new in
  fl_precompile f (fl_rev f (r_block r)) new = None -> ~ taken f w new -> zlen (cp_input p) <= 2 ^ 32 ->
  transferred f w0 (cp_value p) (cp_sender p) new = Some w1 ->
  reference (machine f fallback tick bufs) (w1, mkR (r_depth r + 1) (r_static r) (r_block r) (r_origin r) (r_price r)) (fl_rev f (r_block r)) (cp_input p) (init_message f r p new) = (cr, x) ->
  match cr_status cr with
  | EVMC_SUCCESS =>
    (undeployable (fl_rev f (r_block r)) (cr_output cr) (cr_gas_left cr) -> calls_to f w r kind p (Some (mkCallResult [] 0 0 0 false)) (fst x)) /\
    (~ undeployable (fl_rev f (r_block r)) (cr_output cr) (cr_gas_left cr) ->
       calls_to f w r kind p (Some (mkCallResult (cr_output cr) (cr_gas_left cr - 200 * zlen (cr_output cr)) (cr_gas_refund cr) new true))
         (x_set_code (fl_ctx f) (fst x) new (cr_output cr)))
  | _ => calls_to f w r kind p (call_answer cr new) w0
  end.
Proof. exact (@creation_runs). Qed.
(** what a creation that was attempted leaves behind *)
Theorem C65_outcome : forall W (f : floria W), floria_ok f -> forall w r kind p res w', params_ok p -> 0 <= r_depth r <= 1024 -> is_create kind = true -> cp_recipient p = 0 ->
  fl_precompile f (fl_rev f (r_block r)) (new_address f w kind p) = None -> ~ taken f w (new_address f w kind p) -> calls_to f w r kind p res w' ->
  match res with
  | Some res =>
    if gr_success res
    then gr_created res = new_address f w kind p /\ rc_code (x_rc (fl_ctx f)) w' (new_address f w kind p) = gr_output res /\ zlen (gr_output res) <= 24576 /\
      (rev_ge (fl_rev f (r_block r)) London = true -> forall b rest, gr_output res = b :: rest -> b <> 0xEF) /\ gr_gas_left res + 200 * zlen (gr_output res) <= cp_gas p
    else 0 < gr_gas_left res -> w' = registered f w (cp_sender p) (new_address f w kind p)
  | None => w' = registered f w (cp_sender p) (new_address f w kind p)
  end.
Proof. exact (@creation). Qed.
Definition lg_new : Z := lg_create 1 3.
(** an init code that stores and returns five zeros *)
Example C65_case : ~ taken (lg_floria false) lg_start lg_new /\
  exists w', runs_to (lg_floria false) lg_start 20 (lg_tx 1 None 3 10 100000 2 [0x60; 7; 0x60; 5; 0x55; 0x60; 5; 0x60; 0; 0xF3]) (Receipt (mkReceipt true [0; 0; 0; 0; 0] (Some lg_new) 78636 [])) w' /\
    lg_code w' lg_new = [0; 0; 0; 0; 0] /\ lg_storage w' lg_new 5 = 7 /\ lg_balance w' lg_new = 10 /\ lg_nonce w' lg_new = 1 /\ lg_nonce w' 1 = 4.
Proof. split; [unfold taken; vm_compute; intuition congruence|]. lg_go. Qed.
(** failing creations leave nothing behind but the nonces -- unless the code that is returned is undeployable: the value and what the init code stored stay *)
Theorem C65_failed_creation_refuted : exists t o w', transaction_ok t /\ t_recipient t = None /\ t_value t = 10 /\
  runs_to (lg_floria false) lg_start 20 t o w' /\ rt_success (receipt_of o) = false /\ rt_gas_used (receipt_of o) = t_gas_limit t /\
  lg_storage w' lg_new 5 = 7 /\ lg_balance w' lg_new = 10.
Proof.
  exists (lg_tx 1 None 3 10 100000 2 [0x60; 7; 0x60; 5; 0x55; 0x60; 0xEF; 0x60; 0; 0x53; 0x60; 1; 0x60; 0; 0xF3]). eexists _, _. split; [lg_tx_ok|]. do 2 (split; [reflexivity|]).
  split; [apply lg_run; [lg_tx_ok|vm_compute; reflexivity]|]. repeat split; vm_compute; reflexivity.
Qed.
Print Assumptions C65_taken.
Print Assumptions C65_unfunded.
Print Assumptions C65_creation.
Print Assumptions C65_outcome.
Print Assumptions C65_failed_creation_refuted.

(** ** C66 *)
Theorem C66_nonce : forall W (f : floria W), floria_ok f -> accounts_ok (fl_ctx f) -> addresses_ok f ->
  let nonce := rc_nonce (x_rc (fl_ctx f)) in let code := rc_code (x_rc (fl_ctx f)) in
  forall w block t o w', transaction_ok t -> acceptable f w t -> intrinsic t <= t_gas_limit t -> ~ oversized (fl_rev f block) t ->
  t_sender t <> DriverAddress -> code w DriverAddress = [] -> code w (t_sender t) = [] ->
  (t_recipient t = None -> ~ taken f (started f (fl_rev f block) w t) (fl_create f (t_sender t) (t_nonce t))) ->
  runs_to f w block t o w' -> nonce w' (t_sender t) = t_nonce t + 1 /\ code w' (t_sender t) = [].
Proof. exact (@sender_nonce). Qed.
(** so it is refused the next time *)
Theorem C66_no_replay : forall W (f : floria W), floria_ok f -> accounts_ok (fl_ctx f) -> addresses_ok f ->
  let code := rc_code (x_rc (fl_ctx f)) in
  forall w block t o w' block', transaction_ok t -> acceptable f w t -> intrinsic t <= t_gas_limit t -> ~ oversized (fl_rev f block) t ->
  t_sender t <> DriverAddress -> code w DriverAddress = [] -> code w (t_sender t) = [] ->
  (t_recipient t = None -> ~ taken f (started f (fl_rev f block) w t) (fl_create f (t_sender t) (t_nonce t))) ->
  runs_to f w block t o w' -> runs_to f w' block' t (Receipt (mkReceipt false [] None 0 [])) w'.
Proof. exact (@no_replay). Qed.
(** but transactions with too little gas are charged and keep their nonce *)
Theorem C66_underpaid : forall W (f : floria W), floria_ok f ->
  let balance := rc_balance (x_rc (fl_ctx f)) in let nonce := rc_nonce (x_rc (fl_ctx f)) in
  forall w block t w', transaction_ok t -> 0 <= t_gas_limit t -> acceptable f w t -> t_gas_limit t < intrinsic t ->
  runs_to f w block t (Receipt (mkReceipt false [] None (t_gas_limit t) [])) w' ->
  balance w' (t_sender t) = balance w (t_sender t) - t_gas_price t * t_gas_limit t /\ nonce w' (t_sender t) = t_nonce t.
Proof. exact (@underpaid_again). Qed.
Example C66_case : exists w', runs_to (lg_floria false) lg_start 20 (lg_tx 1 (Some 16) 3 10 60000 2 [1; 0]) (Receipt (mkReceipt true [] None 44813 [])) w' /\ lg_nonce w' 1 = 4.
Proof. lg_go. Qed.
(** a transaction that is charged, twice *)
Theorem C66_replay_refuted : exists t w1 w2, transaction_ok t /\ 0 <= t_gas_limit t /\
  runs_to (lg_floria false) lg_start 20 t (Receipt (mkReceipt false [] None 20999 [])) w1 /\ runs_to (lg_floria false) w1 20 t (Receipt (mkReceipt false [] None 20999 [])) w2 /\
  lg_balance lg_start 1 = 1000000 /\ lg_balance w1 1 = 958002 /\ lg_balance w2 1 = 916004.
Proof.
  exists (lg_tx 1 (Some 2) 3 10 20999 2 []). eexists _, _. split; [lg_tx_ok|]. split; [cbn; lia|]. split; [apply lg_run; [lg_tx_ok|vm_compute; reflexivity]|]. split; [apply lg_run; [lg_tx_ok|vm_compute; reflexivity]|]. repeat split.
Qed.
Print Assumptions C66_nonce.
Print Assumptions C66_no_replay.
Print Assumptions C66_underpaid.
Print Assumptions C66_replay_refuted.

(** ** C67 *)
Theorem C67_precompiled : forall W (f : floria W), floria_ok f -> forall w r kind p w1 c, params_ok p -> 0 <= r_depth r <= 1024 -> is_create kind = false -> moved f w kind p = Some w1 ->
  cp_recipient p <> StateContractAddress -> fl_precompile f (fl_rev f (r_block r)) (cp_recipient p) = Some c ->
  calls_to f w r kind p
    (Some (if cp_gas p <? pre_gas c (cp_input p) then mkCallResult [] 0 0 0 false
           else match pre_run c (cp_input p) with
                | Some out => mkCallResult out (cp_gas p - pre_gas c (cp_input p)) 0 0 true
                | None => mkCallResult [] (cp_gas p - pre_gas c (cp_input p)) 0 0 false
                end)) w1.
Proof. exact (@call_precompiled). Qed.
Example C67_case : exists w', calls_to (lg_floria false) lg_start (mkR 3 false 20 1 2) GoCall (mkCallParams 1 4 10 [1] 30000 0 0) (Some (mkCallResult [1; 2; 3] 29985 0 0 true)) w' /\ lg_balance w' 4 = 10.
Proof. eexists. split; [apply lg_call; [lg_params_ok|cbn; lia|vm_compute; reflexivity]|reflexivity]. Qed.
(** a failing precompiled contract keeps the value it was sent *)
Theorem C67_failed_transfer_refuted : exists p res w', params_ok p /\ cp_value p = 10 /\ calls_to (lg_floria false) lg_start (mkR 3 false 20 1 2) GoCall p (Some res) w' /\
  gr_success res = false /\ lg_balance w' (cp_recipient p) = 10 /\ lg_balance w' (cp_sender p) = lg_balance lg_start (cp_sender p) - 10.
Proof. exists (mkCallParams 1 5 10 [1] 30000 0 0). eexists _, _. split; [lg_params_ok|]. split; [reflexivity|]. split; [apply lg_call; [lg_params_ok|cbn; lia|vm_compute; reflexivity]|]. repeat split. Qed.
(** [floria_ok] asks that RequiredGas is below 2^63; with the 2^64 - 1 that geth's modular exponentiation asks for huge operands the call costs -1 *)
Theorem C67_huge_price_refuted : exists f : floria ledger, (forall input, option_map (fun c => pre_gas c input) (fl_precompile f Cancun 5) = Some (2 ^ 64 - 1)) /\
  handlePrecompiledContract f Cancun [] 5 100 = Some (mkCallResult [] 101 0 0 true).
Proof.
  exists (mkFloria (lg_context false) lg_hash lg_create lg_create2 (fun _ _ => Some (mkPre (fun _ => 2 ^ 64 - 1) (fun _ => Some []))) (fun _ => []) (fun _ => Cancun)
    (fun b o p => mkTx p o 0 0 0 0 0 0 0 0 []) (fun _ => [])). split; [reflexivity|vm_compute; reflexivity].
Qed.
Print Assumptions C67_precompiled.
Print Assumptions C67_failed_transfer_refuted.
Print Assumptions C67_huge_price_refuted.
