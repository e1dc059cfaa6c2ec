(** * The world of the conformance tests *)
From Verif Require Import Base Host GoAdapter GoStorage Lfvm Ct CtRules SpecWorld CtWorldFacts LfvmToy.
From Coq Require Import Lia ZArith List Bool.
Import ListNotations.
Open Scope Z_scope.
(** [world tx w h]: the world of a test after the operations [h] (SpecWorld.v), which may come in any order and number *)
Notation world tx w h := (after (ct_rc tx) ct_Call w h).

(** ** C90: states under test behave as a world, after every history of operations *)
(** a slot holds what was last written to it, and what it held before if nothing was *)
Theorem C90_storage : forall tx w h, Forall writes_words h -> forall a k,
  rc_storage (ct_rc tx) (world tx w h) a k = or_else (last_write (storage_write k) h) (rc_storage (ct_rc tx) w a k).
Proof. exact (@storage_kept). Qed.
Theorem C90_transient : forall tx w h, Forall writes_words h -> forall a k,
  rc_transient (ct_rc tx) (world tx w h) a k = or_else (last_write (transient_write k) h) (rc_transient (ct_rc tx) w a k).
Proof. exact (@transient_kept). Qed.
(** writes are classified by the value at the begin of the transaction, which stays what it was, the present value and the new one *)
Theorem C90_status : forall tx w h a k v, Forall writes_words h ->
  fst (rc_set_storage (ct_rc tx) (world tx w h) a k v) = write_status (GetOriginal w k) (rc_storage (ct_rc tx) (world tx w h) a k) v.
Proof. exact (@status_of). Qed.
(** what has been accessed is warm, and nothing else becomes warm *)
Theorem C90_accounts_warm : forall tx w h a,
  fst (rc_access_account (ct_rc tx) (world tx w h) a) = WARM <-> fst (rc_access_account (ct_rc tx) w a) = WARM \/ In (AccessesAccount a) h.
Proof. exact (@account_warm). Qed.
Theorem C90_slots_warm : forall tx w h a k,
  fst (rc_access_storage (ct_rc tx) (world tx w h) a k) = WARM <-> fst (rc_access_storage (ct_rc tx) w a k) = WARM \/ exists a', In (AccessesStorage a' k) h.
Proof. exact (@storage_warm). Qed.
(** only the first destruction counts; all are in the journal, in order; so are logs and calls *)
Theorem C90_destruction : forall tx w h a b,
  fst (rc_selfdestruct (ct_rc tx) (world tx w h) a b) = true <-> w_destructed w = false /\ forall x y, ~ In (SelfDestructs x y) h.
Proof. exact (@destructs). Qed.
Theorem C90_journals : forall tx w h,
  w_journal (world tx w h) = w_journal w ++ flat_map (fun o => match o with SelfDestructs a b => [(a, b)] | _ => [] end) h /\
  w_logs (world tx w h) = w_logs w ++ flat_map (fun o => match o with EmitsLog _ topics data => [(topics, data)] | _ => [] end) h /\
  w_past (world tx w h) = w_past w ++ flat_map (fun o => match o with
    | Calls kind p => [mkPast kind (cp_recipient p) (cp_sender p) (cp_input p) (cp_value p) (cp_gas p) (cp_code_address p)] | _ => [] end) h.
Proof. exact (fun tx w h => conj (journal_kept tx w h) (conj (logs_kept tx w h) (past_kept tx w h))). Qed.
(** the n-th call gets the n-th prepared answer, and a failure that costs nothing if there is none *)
Theorem C90_calls : forall tx w h kind p, 0 <= cp_gas p < 2 ^ 63 -> Forall (fun r => 0 <= fc_costs r) (w_future w) ->
  fst (ct_Call (world tx w h) kind p) = Some match nth_error (w_future w) (length (filter is_call h)) with
    | Some r => mkCallResult (fc_output r) (Z.max 0 (cp_gas p - fc_costs r)) (fc_refund r) (fc_created r) (fc_success r)
    | None => mkCallResult [] (cp_gas p) 0 0 false
    end.
Proof. exact (@calls_answered). Qed.
(** balances and codes stay; the hashes of the last 256 blocks, and of no others, are known *)
Theorem C90_accounts : forall tx w h a, rc_balance (ct_rc tx) (world tx w h) a = rc_balance (ct_rc tx) w a /\ rc_code (ct_rc tx) (world tx w h) a = rc_code (ct_rc tx) w a /\
  rc_code_size (ct_rc tx) (world tx w h) a = rc_code_size (ct_rc tx) w a /\ rc_nonce (ct_rc tx) (world tx w h) a = 0.
Proof. exact (@accounts_kept). Qed.
Theorem C90_block_hash : forall tx w h n, 0 <= tx_number tx < 2 ^ 63 ->
  rc_block_hash (ct_rc tx) (world tx w h) n =
  if (0 <=? n) && (tx_number tx - 256 <=? n) && (n <? tx_number tx) then word (nth (Z.to_nat (tx_number tx - 1 - n)) (w_hashes w) 0) else 0.
Proof. exact (@block_hash). Qed.
(** what is not as in the world of a chain: all contracts have the same slots, and all codes the same hash, 0 *)
Example C90_one_contract_refuted : ~ forall tx w k v a, a <> 1 -> rc_storage (ct_rc tx) (snd (rc_set_storage (ct_rc tx) w 1 k v)) a k = rc_storage (ct_rc tx) w a k.
Proof. intros f. specialize (f lt_tx (mkCtw [] [] [] [] [] [] [] [] [] false [] []) 7 5 2 ltac:(lia)). discriminate f. Qed.
Example C90_code_hash_refuted : ~ exists tx w a a', rc_code_hash (ct_rc tx) w a <> rc_code_hash (ct_rc tx) w a'.
Proof. intros (tx & w & a & a' & n). apply n. reflexivity. Qed.

(** a history of all kinds of operations *)
Definition wd_call (gas : Z) : call_params := mkCallParams 1 2 3 [4; 5] gas 0 9.
Definition wd_history : list operation :=
  [SetsStorage 1 7 5; SetsTransient 1 7 6; AccessesAccount 9; Calls GoCall (wd_call 50); AccessesStorage 1 7; SetsStorage 1 7 0; SetsTransient 2 7 0; SetsTransient 1 8 3;
   EmitsLog 1 [77] [1; 2; 3]; SelfDestructs 1 2; SetsStorage 1 9 4; Calls GoStaticCall (wd_call 20)].
Definition wd_world : ctw :=
  mkCtw [(7, 3); (8, 2)] [(7, 3); (9, 1)] [8] [(7, 1)] [(9, (100, [0x60; 0]))] [1] [] [] [mkFuture true [1] 10 2 0; mkFuture false [2] 90 0 0] false [] [11; 12; 13].
Example C90_case : Forall writes_words wd_history /\
  rc_storage (ct_rc lt_tx) (world lt_tx wd_world wd_history) 1 7 = 0 /\ rc_storage (ct_rc lt_tx) (world lt_tx wd_world wd_history) 1 8 = 2 /\
  rc_transient (ct_rc lt_tx) (world lt_tx wd_world wd_history) 1 7 = 0 /\ rc_transient (ct_rc lt_tx) (world lt_tx wd_world wd_history) 1 8 = 3 /\
  fst (rc_set_storage (ct_rc lt_tx) (world lt_tx wd_world wd_history) 1 7 3) = S_DELETED_RESTORED /\
  fst (ct_Call (world lt_tx wd_world (firstn 11 wd_history)) GoStaticCall (wd_call 20)) = Some (mkCallResult [2] 0 0 0 false) /\
  fst (ct_Call (world lt_tx wd_world wd_history) GoCall (wd_call 20)) = Some (mkCallResult [] 20 0 0 false) /\
  w_past (world lt_tx wd_world wd_history) = [mkPast GoCall 2 1 [4; 5] 3 50 9; mkPast GoStaticCall 2 1 [4; 5] 3 20 9].
Proof.
  split; [|vm_compute; repeat split; reflexivity].
  repeat constructor; unfold is_word; cbn [writes_words]; try exact Logic.I; try lia; vm_compute; split; congruence.
Qed.
Example C90_range : rc_block_hash (ct_rc lt_tx) wd_world (tx_number lt_tx - 2) = 12 /\ 0 <= tx_number lt_tx < 2 ^ 63.
Proof. split; [vm_compute; reflexivity|]. split; [vm_compute; discriminate|vm_compute; reflexivity]. Qed.
Print Assumptions C90_storage.
Print Assumptions C90_transient.
Print Assumptions C90_status.
Print Assumptions C90_accounts_warm.
Print Assumptions C90_slots_warm.
Print Assumptions C90_destruction.
Print Assumptions C90_journals.
Print Assumptions C90_calls.
Print Assumptions C90_accounts.
Print Assumptions C90_block_hash.
