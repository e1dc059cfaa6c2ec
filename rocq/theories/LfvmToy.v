(** A concrete run context for the Go interpreter, for examples. *)
From Verif Require Import Base Host SpecEvm SpecVm Vm Client GoAdapter Floria SpecTx GoStorage Toy MemFacts TxFacts FloriaFacts LfvmCode Lfvm SpecLfvm LfvmSim Ledger.
From Coq Require Import Lia ZArith List Bool.
Import ListNotations.
Open Scope Z_scope.

(** the ledger of Ledger.v; slots whose value was changed count as accessed *)
Definition lt_access_storage (w : ledger) (a k : Z) : access_status * ledger :=
  (if negb (lg_storage w a k =? get 0 (l_base w) (slot a k)) then WARM else fst (lg_access w (slot a k)), snd (lg_access w (slot a k))).
Definition lt_rc : run_context ledger := mkRC ledger
  lg_nonce lg_balance (fun w a => zlen (lg_code w a)) lg_code_hash lg_code lg_storage (fun _ _ _ => 0) (fun _ n => n mod 2 ^ 256)
  lg_set_storage (fun w _ _ _ => w) lg_access lt_access_storage (lg_destruct false) lg_log.
Definition lt_tx : tx_context := mkTx 3 1 0xBB 20 1700000000 30000000 5 250 7 3 [11; 12].
(** calls use half of their gas, store their input's length at slot 9 of the recipient, and return three bytes; calls to 0xDEAD fail *)
Definition lt_call (w : ledger) (k : go_kind) (p : call_params) : option call_result * ledger :=
  if cp_recipient p =? 0xDEAD then (None, w)
  else (Some (mkCallResult [1; 2; 3] (cp_gas p / 2) 0 0 true), snd (lg_set_storage w (cp_recipient p) 9 (zlen (cp_input p)))).

Lemma lt_tx_ok : tx_ok lt_tx.
Proof.
  split; cbn [lt_tx tx_gas_price tx_origin tx_coinbase tx_number tx_timestamp tx_gas_limit tx_prev_randao tx_chain_id tx_base_fee tx_blob_base_fee tx_blob_hashes];
    unfold is_addr, is_word; try lia; try (split; reflexivity || (cbv; discriminate)); try reflexivity. repeat constructor; unfold is_word; lia.
Qed.
Lemma lt_host_ok : host_ok (go_host lt_rc lt_tx).
Proof.
  pose proof (go_host_ok (lg_floria false) (lg_floria_ok false) lt_tx lt_tx_ok) as [h1 h2 h3 h4 h5 h6 h7 h8].
  split; assumption.
Qed.
Lemma lt_env d : env_ok lt_rc lt_tx lt_call lg_hash d.
Proof.
  split.
  - exact lt_host_ok.
  - exact lt_tx_ok.
  - exact lg_hash_word.
  - intros w a. cbn [lt_rc rc_code]. pose proof (proj2 (xo_code _ (lg_context_ok false) w a)) as X. change (rc_code (x_rc (lg_context false))) with lg_code in X. change (2 ^ 63) with 9223372036854775808. change (2 ^ 32) with 4294967296 in X. lia.
  - intros w m hm hg hd. unfold answers, lt_call. destruct (cp_recipient (call_params_of m) =? 0xDEAD); cbn [fst cresult_of].
    + split; cbn [cr_gas_left cr_gas_refund cr_output cr_create_address]; [lia|rewrite Z.abs_0; lia|constructor|reflexivity|unfold is_addr; lia].
    + cbn [gr_success gr_gas_left gr_gas_refund gr_output gr_created call_params_of cp_gas].
      assert (0 <= msg_gas m / 2 <= msg_gas m) by (split; [apply Z.div_pos; lia|apply Z.div_le_upper_bound; lia]).
      split; cbn [cr_gas_left cr_gas_refund cr_output cr_create_address]; [lia|rewrite Z.abs_0; lia|bytes|reflexivity|unfold is_addr; lia].
  - intros w a st w1 h b. injection h as _ <-. split; reflexivity.
  - intros w a k v w1 st w2 h1 h2. cbn [lt_rc rc_access_storage rc_set_storage] in *. unfold lt_access_storage in h1.
    destruct (Z.eqb_spec (lg_storage w a k) (get 0 (l_base w) (slot a k))) as [e|ne]; [|discriminate h1]. injection h1 as _ <-. injection h2 as <- _.
    unfold lg_storage in *. cbn [lg_access snd l_base l_store]. rewrite e. clear. set (o := get _ _ _). clearbody o.
    unfold GetStorageStatus. rewrite Z.eqb_refl. destruct (o =? v); [split; discriminate|]. destruct (o =? 0), (v =? 0), (v =? o); cbn; split; discriminate.
Qed.

(** the same run context for evmzero *)
Definition lt_setting : setting ledger := mkSetting (go_host lt_rc lt_tx) lg_hash (fun n => Z.of_nat n) (fun _ => repeat None 1024)
  (fun w m => let '(r, w') := answers lt_call w m in Done r w') (fun _ => []).
Lemma lt_setting_ok : setting_ok lt_setting.
Proof.
  split; cbn [lt_setting g_host g_keccak g_bufs g_handler g_code_of].
  - exact lt_host_ok.
  - exact lg_hash_word.
  - intros _. vm_compute. reflexivity.
  - intros w m hm hg hd. pose proof (env_calls _ _ _ _ _ (lt_env (msg_depth m - 1)) w m hm hg ltac:(lia)) as X.
    destruct (answers lt_call w m) as [r w']. constructor. exact X.
Qed.
Lemma lt_nested w m : nested lt_setting w m = answers lt_call w m.
Proof. unfold nested. cbn [lt_setting g_handler]. destruct (answers lt_call w m). reflexivity. Qed.
