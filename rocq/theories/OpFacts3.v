(** Instructions that use the host, as observed through StepN. *)
From Verif Require Import Base Host SpecEvm SpecVm MemFacts JumpFacts ArithFacts SpecFacts Vm VmFacts SpecStep StepFacts Client ClientFacts SpecOps SpecHost OpFacts OpFacts2.
From Coq Require Import Lia ZArith List Bool.
Import ListNotations.

Ltac stk := cbn [in_fee]; repeat match goal with |- context [f_stack (with_gas ?x (frame_in ?m ?w ?s))] => change (f_stack (with_gas x (frame_in m w s))) with (rev (si_stack s)) end.

Section Ops.
Context {W : Type}.
Variable g : setting W.
Hypothesis Hg : setting_ok g.
Notation hst := (g_host g).
Notation keccak := (g_keccak g).
Notation sexec := (SpecEvm.exec hst (nested g) keccak).

(** ** The checks in front of every instruction *)
Lemma check_fail v w rv code m si op e f' : at_op g v code m si op ->
  ref_step g m rv code (frame_in m w si) = Fail e f' -> fails_with g v w rv code m si (failure_status e) (f_world f').
Proof.
  intros A E. destruct (one_step g Hg v w rv code m si op A) as (so & w' & v' & E' & Hv & HR & _). rewrite E in HR. cbn [one_result] in HR.
  destruct HR as [HF ->]. exists so. split; [exists v'; split; [exact E'|exact Hv]|exact HF].
Qed.
Lemma base_fee_short v w rv code m si op i : at_op g v code m si op -> instruction op = Some i ->
  rev_ge rv (in_since i) = true -> in_stateful i && static m = false ->
  in_args i <= zlen (si_stack si) -> zlen (si_stack si) - in_args i + in_results i <= 1024 -> msg_gas m < in_fee i ->
  out_of_gas g v w rv code m si.
Proof.
  intros A Hi H1 H2 H3 H4 Hl. apply (check_fail v w rv code m si op OutOfGas (frame_in m w si) A).
  unfold ref_step, step. change (f_pc (frame_in m w si)) with (si_pc si).
  rewrite (at_code _ _ _ _ _ _ A), Hi, H1, H2. cbn [negb].
  change (f_stack (frame_in m w si)) with (rev (si_stack si)). rewrite zlen_rev.
  destruct (Z.ltb_spec (zlen (si_stack si)) (in_args i)); [lia|].
  destruct (Z.ltb_spec 1024 (zlen (si_stack si) - in_args i + in_results i)); [lia|].
  unfold charge. change (f_gas (frame_in m w si)) with (msg_gas m).
  destruct (Z.ltb_spec (msg_gas m) (in_fee i)); [reflexivity|lia].
Qed.

(** a cost that is charged after the host has reached the state [w1] *)
Lemma charged_in v w rv code m si op i w1 c k : at_op g v code m si op -> instruction op = Some i ->
  rev_ge rv (in_since i) = true -> in_stateful i && static m = false ->
  in_args i <= zlen (si_stack si) -> zlen (si_stack si) - in_args i + in_results i <= 1024 -> in_fee i <= msg_gas m ->
  (let f := with_world w1 (with_gas (msg_gas m - in_fee i) (frame_in m w si)) in
   sexec m rv code (is_dest code) op (with_gas (msg_gas m - in_fee i) (frame_in m w si)) = charge c f k) ->
  (msg_gas m < in_fee i + c -> fails_with g v w rv code m si EVMC_OUT_OF_GAS w1) /\
  (in_fee i + c <= msg_gas m ->
     sexec m rv code (is_dest code) op (with_gas (msg_gas m - in_fee i) (frame_in m w si)) = k (with_gas (msg_gas m - (in_fee i + c)) (frame_in m w1 si))).
Proof.
  intros A Hi H1 H2 H3 H4 Hf He. cbv zeta in He. unfold charge in He. cbn [with_gas with_world f_gas] in He. split.
  - intros Hlt. destruct (Z.ltb_spec (msg_gas m - in_fee i) c); [|lia].
    destruct (fail_result g Hg v w rv code m si op i _ _ A Hi H1 H2 H3 H4 Hf He) as (so & X & Y). exists so. split; [exact X|exact Y].
  - intros Hge. rewrite He. destruct (Z.ltb_spec (msg_gas m - in_fee i) c); [lia|]. f_equal. unfold with_gas, with_world, frame_in.
    cbn [f_pc f_gas f_stack f_mem f_active f_ret f_refund f_world]. f_equal. lia.
Qed.

Lemma account_cost_is rv (f : frame W) a c w1 : account_access hst rv (f_world f) a = (c, w1) -> account_cost hst rv f a = (c, with_world w1 f).
Proof.
  unfold account_access, account_cost. destruct (rev_ge rv Berlin).
  - destruct (h_access_account hst (f_world f) a) as [st w']. intros E. injection E as <- <-. reflexivity.
  - intros E. injection E as <- <-. destruct f; reflexivity.
Qed.
Lemma slot_cost_is rv m (f : frame W) k c w1 : slot_access hst rv (f_world f) (msg_recipient m) k = (c, w1) -> slot_cost hst m rv f k = (c, with_world w1 f).
Proof.
  unfold slot_access, slot_cost, self. destruct (rev_ge rv Berlin).
  - destruct (h_access_storage hst (f_world f) _ k) as [st w']. intros E. injection E as <- <-. reflexivity.
  - intros E. injection E as <- <-. destruct f; reflexivity.
Qed.
Lemma account_access_pos rv w a c w1 : account_access hst rv w a = (c, w1) -> 100 <= c <= 2600.
Proof. unfold account_access. destruct (rev_ge rv Berlin); [destruct (h_access_account hst w a) as [[] ?]|]; intros E; injection E as <- <-; lia. Qed.
Lemma slot_access_pos rv w a k c w1 : slot_access hst rv w a k = (c, w1) -> 100 <= c <= 2100.
Proof. unfold slot_access. destruct (rev_ge rv Berlin); [destruct (h_access_storage hst w a k) as [[] ?]|]; intros E; injection E as <- <-; lia. Qed.


Lemma acc_op v w rv code m si op i ins rest w1 c k f' : at_op g v code m si op -> instruction op = Some i ->
  rev_ge rv (in_since i) = true -> in_stateful i && static m = false ->
  si_stack si = rest ++ rev ins -> zlen ins = in_args i -> zlen rest + in_results i <= 1024 -> 0 <= c ->
  (let f := with_world w1 (with_gas (msg_gas m - in_fee i) (frame_in m w si)) in
   sexec m rv code (is_dest code) op (with_gas (msg_gas m - in_fee i) (frame_in m w si)) = charge c f k) ->
  k (with_gas (msg_gas m - (in_fee i + c)) (frame_in m w1 si)) = Next f' ->
  (in_fee i + c <= msg_gas m ->
    steps_to g v w rv code m si (running rv (f_pc f') (f_gas f') (f_refund f') (rev (f_stack f')) (read_bytes (f_mem f') 0 (f_active f')) (f_ret f')) (f_world f')
    /\ still_ok code f') /\
  (in_fee i <= msg_gas m < in_fee i + c -> fails_with g v w rv code m si EVMC_OUT_OF_GAS w1) /\
  (msg_gas m < in_fee i -> out_of_gas g v w rv code m si).
Proof.
  intros A Hi H1 H2 Hs Hl Hh Hc He Hk.
  assert (Hz : zlen (si_stack si) = zlen rest + in_args i) by (rewrite Hs, zlen_app, zlen_rev; lia). pose proof (zlen_nonneg rest).
  split; [|split].
  - intros Hf. destruct (charged_in v w rv code m si op i w1 c k A Hi H1 H2 ltac:(lia) ltac:(lia) ltac:(lia) He) as [_ Y]. specialize (Y Hf). rewrite Hk in Y.
    apply (next_result g Hg v w rv code m si op i f' A Hi H1 H2 ltac:(lia) ltac:(lia) ltac:(lia) Y).
  - intros [Hp Hlt]. destruct (charged_in v w rv code m si op i w1 c k A Hi H1 H2 ltac:(lia) ltac:(lia) ltac:(lia) He) as [X _]. apply X. exact Hlt.
  - intros Hlt. apply (base_fee_short v w rv code m si op i A Hi H1 H2 ltac:(lia) ltac:(lia) Hlt).
Qed.

(** ** Reading accounts and storage *)
(** BALANCE, EXTCODESIZE, EXTCODEHASH *)
Theorem op_account v w rv code m si op q rest a c w1 :
  In (op, q) [(0x31, h_get_balance hst); (0x3B, h_get_code_size hst); (0x3F, h_get_code_hash hst)] -> at_op g v code m si op ->
  si_stack si = rest ++ [a] -> account_access hst rv w (a mod 2 ^ 160) = (c, w1) ->
  (c <= msg_gas m ->
     steps_to g v w rv code m si (running rv (si_pc si + 1) (msg_gas m - c) (si_refunds si) (rest ++ [q w1 (a mod 2 ^ 160)]) (whole_words (si_mem si)) (si_ret si)) w1) /\
  (0 <= msg_gas m < c -> fails_with g v w rv code m si EVMC_OUT_OF_GAS w1).
Proof.
  intros HIn A Hs Hac. pose proof (stack_room code m si rest [a] 1 (at_args _ _ _ _ _ _ A) Hs eq_refl) as Hh.
  pose proof (account_access_pos _ _ _ _ _ Hac) as Hc.
  assert (Hi : instruction op = Some (mkInstr 1 1 0 Istanbul false)).
  { cbn [In] in HIn. destruct HIn as [E|[E|[E|[]]]]; injection E as <- <-; reflexivity. }
  assert (He : forall f : frame W, sexec m rv code (is_dest code) op f = i_account hst rv q f).
  { intros f. cbn [In] in HIn. destruct HIn as [E|[E|[E|[]]]]; injection E as <- <-; reflexivity. }
  destruct (acc_op v w rv code m si op _ [a] rest w1 c (fun f2 => yield (q (f_world f2) (a mod 2 ^ 160) :: rev rest) f2) _
      A Hi (istanbul rv) eq_refl Hs eq_refl ltac:(cbn [in_results]; lia) ltac:(lia)
      ltac:(cbv zeta; rewrite He; unfold i_account; stk; rewrite Hs, rev_app_distr; cbn [rev app]; unfold addr_of;
        rewrite (account_cost_is rv (with_gas (msg_gas m - 0) (frame_in m w si)) (a mod 2 ^ 160) c w1 Hac); reflexivity)
      eq_refl) as (X & Y & _).
  split; [|exact Y]. intros Hf. destruct (X Hf) as [R _]. flds. rewrite rev_involutive, <- whole_words_eq in R. exact R.
Qed.

(** SLOAD *)
Theorem op_sload v w rv code m si rest k c w1 : at_op g v code m si 0x54 ->
  si_stack si = rest ++ [k] -> slot_access hst rv w (msg_recipient m) k = (c, w1) ->
  (c <= msg_gas m ->
     steps_to g v w rv code m si (running rv (si_pc si + 1) (msg_gas m - c) (si_refunds si) (rest ++ [h_get_storage hst w1 (msg_recipient m) k])
       (whole_words (si_mem si)) (si_ret si)) w1) /\
  (0 <= msg_gas m < c -> fails_with g v w rv code m si EVMC_OUT_OF_GAS w1).
Proof.
  intros A Hs Hac. pose proof (stack_room code m si rest [k] 1 (at_args _ _ _ _ _ _ A) Hs eq_refl) as Hh.
  pose proof (slot_access_pos _ _ _ _ _ _ Hac) as Hc.
  destruct (acc_op v w rv code m si 0x54 _ [k] rest w1 c (fun f2 => yield (h_get_storage hst (f_world f2) (msg_recipient m) k :: rev rest) f2) _
      A eq_refl (istanbul rv) eq_refl Hs eq_refl ltac:(cbn [in_results]; lia) ltac:(lia)
      ltac:(cbv zeta; cbn [SpecEvm.exec]; unfold i_sload; stk; rewrite Hs, rev_app_distr; cbn [rev app];
        rewrite (slot_cost_is rv m (with_gas (msg_gas m - 0) (frame_in m w si)) k c w1 Hac); reflexivity)
      eq_refl) as (X & Y & _).
  split; [|exact Y]. intros Hf. destruct (X Hf) as [R _]. flds. rewrite rev_involutive, <- whole_words_eq in R. exact R.
Qed.

(** TLOAD *)
Theorem op_tload v w rv code m si rest k : at_op g v code m si 0x5C -> rev_ge rv Cancun = true -> si_stack si = rest ++ [k] -> 100 <= msg_gas m ->
  steps_to g v w rv code m si (running rv (si_pc si + 1) (msg_gas m - 100) (si_refunds si) (rest ++ [h_get_transient hst w (msg_recipient m) k])
    (whole_words (si_mem si)) (si_ret si)) w.
Proof.
  intros A Hrv Hs Hf. pose proof (stack_room code m si rest [k] 1 (at_args _ _ _ _ _ _ A) Hs eq_refl) as Hh.
  apply (only_stack g Hg v w rv code m si 0x5C _ [k] [h_get_transient hst w (msg_recipient m) k] rest A eq_refl Hrv eq_refl Hs eq_refl eq_refl ltac:(cbn [in_results]; lia) Hf).
  intros f Es Ew _ _ _ _. cbn [SpecEvm.exec]. unfold i_tload, un. rewrite Es, Ew. reflexivity.
Qed.
(** TSTORE *)
Theorem op_tstore v w rv code m si rest k x : at_op g v code m si 0x5D -> rev_ge rv Cancun = true -> static m = false ->
  si_stack si = rest ++ [x; k] -> 100 <= msg_gas m ->
  steps_to g v w rv code m si (running rv (si_pc si + 1) (msg_gas m - 100) (si_refunds si) rest (whole_words (si_mem si)) (si_ret si))
    (h_set_transient hst w (msg_recipient m) k x).
Proof.
  intros A Hrv Hst Hs Hf. pose proof (stack_room code m si rest [x; k] 2 (at_args _ _ _ _ _ _ A) Hs eq_refl) as Hh. pose proof (zlen_nonneg rest).
  assert (Hz : zlen (si_stack si) = zlen rest + 2) by (rewrite Hs, zlen_app; reflexivity).
  destruct (next_result g Hg v w rv code m si 0x5D _
    (with_pc (si_pc si + 1) (with_stack (rev rest) (with_world (h_set_transient hst w (msg_recipient m) k x) (with_gas (msg_gas m - 100) (frame_in m w si)))))
    A eq_refl Hrv ltac:(cbn [in_stateful andb]; exact Hst) ltac:(cbn [in_args]; lia) ltac:(cbn [in_args in_results]; lia) ltac:(cbn [in_fee]; lia)) as [R _].
  - cbn [SpecEvm.exec]. unfold i_tstore. cbn [with_gas frame_in f_stack]. rewrite Hs, rev_app_distr. cbn [rev app]. reflexivity.
  - flds. rewrite rev_involutive, <- whole_words_eq in R. exact R.
Qed.

(** BLOCKHASH, BLOBHASH *)
Theorem op_blockhash v w rv code m si rest n : at_op g v code m si 0x40 -> si_stack si = rest ++ [n] -> 20 <= msg_gas m ->
  let cur := tx_number (h_tx_context hst w) in
  steps_to g v w rv code m si (running rv (si_pc si + 1) (msg_gas m - 20) (si_refunds si)
    (rest ++ [if (cur - 256 <=? n) && (n <? cur) then h_block_hash hst w n else 0]) (whole_words (si_mem si)) (si_ret si)) w.
Proof.
  intros A Hs Hf cur. pose proof (stack_room code m si rest [n] 1 (at_args _ _ _ _ _ _ A) Hs eq_refl) as Hh.
  apply (only_stack g Hg v w rv code m si 0x40 _ [n] [_] rest A eq_refl (istanbul rv) eq_refl Hs eq_refl eq_refl ltac:(cbn [in_results]; lia) Hf).
  intros f Es Ew _ _ _ _. cbn [SpecEvm.exec]. unfold i_blockhash, un. rewrite Es, Ew. reflexivity.
Qed.
Theorem op_blobhash v w rv code m si rest i : at_op g v code m si 0x49 -> rev_ge rv Cancun = true -> si_stack si = rest ++ [i] -> 3 <= msg_gas m ->
  let hs := tx_blob_hashes (h_tx_context hst w) in
  steps_to g v w rv code m si (running rv (si_pc si + 1) (msg_gas m - 3) (si_refunds si)
    (rest ++ [if i <? zlen hs then nth (Z.to_nat i) hs 0 else 0]) (whole_words (si_mem si)) (si_ret si)) w.
Proof.
  intros A Hrv Hs Hf hs. pose proof (stack_room code m si rest [i] 1 (at_args _ _ _ _ _ _ A) Hs eq_refl) as Hh.
  apply (only_stack g Hg v w rv code m si 0x49 _ [i] [_] rest A eq_refl Hrv eq_refl Hs eq_refl eq_refl ltac:(cbn [in_results]; lia) Hf).
  intros f Es Ew _ _ _ _. cbn [SpecEvm.exec]. unfold i_blobhash, un. rewrite Es, Ew. reflexivity.
Qed.

(** ** Control flow *)
Lemma dest_dec code d : {jumpdest code d} + {~ jumpdest code d}.
Proof. destruct (is_dest code d) eqn:E; [left; apply is_dest_spec; exact E|right; rewrite <- is_dest_spec, E; discriminate]. Qed.

Theorem op_jump v w rv code m si rest d : at_op g v code m si 0x56 -> si_stack si = rest ++ [d] -> 8 <= msg_gas m ->
  (jumpdest code d -> steps_to g v w rv code m si (running rv d (msg_gas m - 8) (si_refunds si) rest (whole_words (si_mem si)) (si_ret si)) w) /\
  (~ jumpdest code d -> fails_with g v w rv code m si EVMC_BAD_JUMP_DESTINATION w).
Proof.
  intros A Hs Hf. pose proof (stack_room code m si rest [d] 1 (at_args _ _ _ _ _ _ A) Hs eq_refl) as Hh. pose proof (zlen_nonneg rest).
  assert (Hz : zlen (si_stack si) = zlen rest + 1) by (rewrite Hs, zlen_app; reflexivity).
  assert (He : sexec m rv code (is_dest code) 0x56 (with_gas (msg_gas m - 8) (frame_in m w si)) =
    if is_dest code d then Next (with_pc d (with_stack (rev rest) (with_gas (msg_gas m - 8) (frame_in m w si)))) else Fail BadJump (with_gas (msg_gas m - 8) (frame_in m w si))).
  { cbn [SpecEvm.exec]. unfold i_jump. cbn [with_gas frame_in f_stack]. rewrite Hs, rev_app_distr. cbn [rev app]. reflexivity. }
  split; intros Hd.
  - apply is_dest_spec in Hd. rewrite Hd in He.
    destruct (next_result g Hg v w rv code m si 0x56 (mkInstr 1 0 8 Istanbul false) _ A eq_refl (istanbul rv) eq_refl ltac:(cbn [in_args]; lia) ltac:(cbn [in_args in_results]; lia) Hf He) as [R _].
    flds. rewrite rev_involutive, <- whole_words_eq in R. exact R.
  - rewrite <- is_dest_spec in Hd. apply not_true_is_false in Hd. rewrite Hd in He.
    destruct (fail_result g Hg v w rv code m si 0x56 (mkInstr 1 0 8 Istanbul false) _ _ A eq_refl (istanbul rv) eq_refl ltac:(cbn [in_args]; lia) ltac:(cbn [in_args in_results]; lia) Hf He) as (so & X & Y).
    exists so. split; [exact X|exact Y].
Qed.
Theorem op_jumpi v w rv code m si rest c d : at_op g v code m si 0x57 -> si_stack si = rest ++ [c; d] -> 10 <= msg_gas m ->
  (c = 0 -> steps_to g v w rv code m si (running rv (si_pc si + 1) (msg_gas m - 10) (si_refunds si) rest (whole_words (si_mem si)) (si_ret si)) w) /\
  (c <> 0 -> jumpdest code d -> steps_to g v w rv code m si (running rv d (msg_gas m - 10) (si_refunds si) rest (whole_words (si_mem si)) (si_ret si)) w) /\
  (c <> 0 -> ~ jumpdest code d -> fails_with g v w rv code m si EVMC_BAD_JUMP_DESTINATION w).
Proof.
  intros A Hs Hf. pose proof (stack_room code m si rest [c; d] 2 (at_args _ _ _ _ _ _ A) Hs eq_refl) as Hh. pose proof (zlen_nonneg rest).
  assert (Hz : zlen (si_stack si) = zlen rest + 2) by (rewrite Hs, zlen_app; reflexivity).
  assert (He : sexec m rv code (is_dest code) 0x57 (with_gas (msg_gas m - 10) (frame_in m w si)) =
    if c =? 0 then Next (with_pc (si_pc si + 1) (with_stack (rev rest) (with_gas (msg_gas m - 10) (frame_in m w si))))
    else if is_dest code d then Next (with_pc d (with_stack (rev rest) (with_gas (msg_gas m - 10) (frame_in m w si)))) else Fail BadJump (with_gas (msg_gas m - 10) (frame_in m w si))).
  { cbn [SpecEvm.exec]. unfold i_jumpi. cbn [with_gas frame_in f_stack]. rewrite Hs, rev_app_distr. cbn [rev app]. reflexivity. }
  pose proof (fun f' => next_result g Hg v w rv code m si 0x57 (mkInstr 2 0 10 Istanbul false) f' A eq_refl (istanbul rv) eq_refl ltac:(cbn [in_args]; lia) ltac:(cbn [in_args in_results]; lia) Hf) as N.
  split; [|split].
  - intros ->. cbn [Z.eqb] in He. destruct (N _ He) as [R _]. flds. rewrite rev_involutive, <- whole_words_eq in R. exact R.
  - intros Hc Hd. apply is_dest_spec in Hd. rewrite Hd in He. destruct (Z.eqb_spec c 0); [contradiction|]. destruct (N _ He) as [R _]. flds. rewrite rev_involutive, <- whole_words_eq in R. exact R.
  - intros Hc Hd. rewrite <- is_dest_spec in Hd. apply not_true_is_false in Hd. rewrite Hd in He. destruct (Z.eqb_spec c 0); [contradiction|].
    destruct (fail_result g Hg v w rv code m si 0x57 (mkInstr 2 0 10 Istanbul false) _ _ A eq_refl (istanbul rv) eq_refl ltac:(cbn [in_args]; lia) ltac:(cbn [in_args in_results]; lia) Hf He) as (so & X & Y).
    exists so. split; [exact X|exact Y].
Qed.
Theorem op_jumpdest v w rv code m si : at_op g v code m si 0x5B -> 1 <= msg_gas m ->
  steps_to g v w rv code m si (running rv (si_pc si + 1) (msg_gas m - 1) (si_refunds si) (si_stack si) (whole_words (si_mem si)) (si_ret si)) w.
Proof.
  intros A Hf. pose proof (sk_height _ _ _ (at_args _ _ _ _ _ _ A)). pose proof (zlen_nonneg (si_stack si)).
  destruct (next_result g Hg v w rv code m si 0x5B (mkInstr 0 0 1 Istanbul false) _ A eq_refl (istanbul rv) eq_refl ltac:(cbn [in_args]; lia) ltac:(cbn [in_args in_results]; lia) Hf eq_refl) as [R _].
  flds. rewrite rev_involutive, <- whole_words_eq in R. exact R.
Qed.
Theorem op_stop v w rv code m si : at_op g v code m si 0x00 -> 0 <= msg_gas m ->
  steps_to g v w rv code m si (ended STEP_STOPPED EVMC_SUCCESS rv (si_pc si + 1) (msg_gas m) (si_refunds si) (si_stack si) (whole_words (si_mem si)) []) w.
Proof.
  intros A Hf. pose proof (sk_height _ _ _ (at_args _ _ _ _ _ _ A)). pose proof (zlen_nonneg (si_stack si)).
  pose proof (halt_result g Hg v w rv code m si 0x00 (mkInstr 0 0 0 Istanbul false) _ _ _ A eq_refl (istanbul rv) eq_refl ltac:(cbn [in_args]; lia) ltac:(cbn [in_args in_results]; lia) Hf eq_refl) as R.
  flds. rewrite rev_involutive, <- whole_words_eq, Z.sub_0_r in R. exact R.
Qed.
(** RETURN and REVERT *)
Theorem op_return v w rv code m si op st sc rest n off : In (op, st, sc) [(0xF3, STEP_RETURNED, EVMC_SUCCESS); (0xFD, STEP_REVERTED, EVMC_REVERT)] ->
  at_op g v code m si op -> si_stack si = rest ++ [n; off] ->
  let cost := growth_cost (si_mem si) off n in
  (cost <= msg_gas m -> exists mem',
     steps_to g v w rv code m si (ended st sc rv (si_pc si + 1) (msg_gas m - cost) (si_refunds si) rest mem' (data_bytes (si_mem si) off n)) w /\
     overwritten (si_mem si) mem' (grown (si_mem si) off n) 0 0 (fun _ => 0)) /\
  (msg_gas m < cost -> out_of_gas g v w rv code m si).
Proof.
  intros HIn A Hs cost. pose proof (stack_room code m si rest [n; off] 2 (at_args _ _ _ _ _ _ A) Hs eq_refl) as Hh. pose proof (zlen_nonneg rest).
  assert (Hz : zlen (si_stack si) = zlen rest + 2) by (rewrite Hs, zlen_app; reflexivity).
  assert (exists h, instruction op = Some (mkInstr 2 0 0 Istanbul false) /\ step_halt h = st /\ halt_status h = sc /\
    forall f : frame W, sexec m rv code (is_dest code) op f = i_return h f) as (h & Hi & <- & <- & He).
  { cbn [In] in HIn. destruct HIn as [E|[E|[]]]; injection E as <- <- <-; [exists Returned|exists Reverted]; repeat split; reflexivity. }
  set (k := fun f : frame W => Halt h (read_bytes (f_mem f) off n) (with_pc (f_pc f + 1) (with_stack (rev rest) (touch off n f)))).
  assert (He' : let f := with_gas (msg_gas m - 0) (frame_in m w si) in sexec m rv code (is_dest code) op f = charge cost f k).
  { cbv zeta. rewrite He. unfold i_return. cbn [with_gas frame_in f_stack]. rewrite Hs, rev_app_distr. cbn [rev app]. unfold cost. rewrite <- (fee_eq m w si (msg_gas m - 0)). reflexivity. }
  destruct (charged g Hg v w rv code m si op (mkInstr 2 0 0 Istanbul false) cost k A Hi (istanbul rv) eq_refl ltac:(cbn [in_args]; lia) ltac:(cbn [in_args in_results]; lia)
    (growth_nonneg _ _ _) He') as [Y X].
  cbn [in_fee] in X, Y. rewrite Z.add_0_l in X, Y. split; [|exact Y].
  intros Hf. destruct (X Hf) as [X1 X2]. unfold k in X2.
  pose proof (halt_result g Hg v w rv code m si op (mkInstr 2 0 0 Istanbul false) _ _ _ A Hi (istanbul rv) eq_refl ltac:(cbn [in_args]; lia) ltac:(cbn [in_args in_results]; lia) X1 X2) as R.
  flds. rewrite rev_involutive in R. rewrite data_bytes_read. eexists. split; [exact R|].
  pose proof (expand_ge (32 * words (zlen (si_mem si))) off n) as Hge. pose proof (act_nonneg (si_mem si)).
  split; [rewrite read_bytes_zlen; unfold grown; lia|]. intros i Hi'.
  replace ((0 <=? i) && (i <? 0 + 0)) with false by (destruct (Z.leb_spec 0 i), (Z.ltb_spec i (0 + 0)); try lia; reflexivity).
  destruct (Z.lt_ge_cases i (expand (32 * words (zlen (si_mem si))) off n)) as [Hlt|Hg'].
  - rewrite read_bytes_at by lia. rewrite Z.add_0_l. reflexivity.
  - rewrite data_at_out by (rewrite read_bytes_zlen; lia). rewrite data_at_out; [reflexivity|]. pose proof (words_bound (zlen (si_mem si))). lia.
Qed.
End Ops.
