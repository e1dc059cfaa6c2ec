(** Every instruction of the Go interpreter but PC, PUSHes and jumps simulates the reference, price included. *)
From Verif Require Import Base Host Uint256 SpecEvm SpecCall SpecVm ArithFacts MemFacts JumpFacts SpecFacts Sim GoAdapter LfvmCode Lfvm LfvmSim LfvmOps.
From Coq Require Import Lia ZArith List Bool.
Import ListNotations.
Open Scope Z_scope.

Section Exec.
Context {W : Type}.
Variable rc : run_context W.
Variable tx : tx_context.
Variable Call : W -> go_kind -> call_params -> option call_result * W.
Variable keccak : list Z -> Z.
Variable p : parameters.
Variable lc : lcode.
Variable rv : revision.
Hypothesis Hrev : toEvmcRevision (p_revision p) = Some rv.
Hypothesis Hhost : host_ok (go_host rc tx).
Hypothesis Htx : tx_ok tx.
Hypothesis Hmsg : msg_ok (message_of p).
Hypothesis Hkeccak : forall d, is_word (keccak d).
Hypothesis Hcode : Forall is_byte (p_code p).
Hypothesis Hlen : zlen (p_code p) < 2 ^ 63.
Hypothesis Hsst : forall w a k v w1 st w2, rc_access_storage rc w a k = (COLD, w1) -> rc_set_storage rc w1 a k v = (st, w2) ->
  st <> S_DELETED_RESTORED /\ st <> S_MODIFIED_RESTORED.
Hypothesis Hcodes : forall w a, zlen (rc_code rc w a) < 2 ^ 63.
Hypothesis Hacc : forall w a st w1, rc_access_account rc w a = (st, w1) -> forall b, is_empty rc w1 b = is_empty rc w b /\ rc_balance rc w1 b = rc_balance rc w b.
Hypothesis Hcalls : calls_ok (callF Call) (p_depth p).
Hypothesis Hdepth : p_depth p <= 1024.

Notation H := (go_host rc tx).
Notation msg := (message_of p).
Notation frame := (frame W).
Notation ctx := (ctx W).
Notation oc := (oc W).
Notation exec := (SpecEvm.exec H (callF Call) keccak msg rv (p_code p) (is_dest (p_code p))).
Notation execute_op := (execute_op rc tx Call keccak p lc).

(** ** Prices *)
Definition surcharge (b : Z) : Z := if b =? 0x54 then 800 else if existsb (Z.eqb b) [0x31; 0x3B; 0x3C; 0x3F; 0xF1; 0xF2; 0xF4; 0xFA] then 700 else 0.
Lemma price_ok b ins : is_byte b -> instruction b = Some ins -> staticGasPrice (p_revision p) b = in_fee ins + price_of rv (surcharge b).
Proof.
  intros hb he.
  assert (h : forallb (fun r => match instruction b with Some i => staticGasPrice r b =? in_fee i + (if 1 <=? r then 0 else surcharge b) | None => true end) [0; 1; 2; 3; 4; 5] = true).
  { clear he ins. revert b hb. apply byte_check. vm_compute. reflexivity. }
  rewrite he in h. rewrite forallb_forall in h. unfold price_of. rewrite <- (at_berlin p rv Hrev). unfold isAtLeast.
  apply Z.eqb_eq. apply h. destruct (rev_cases p rv Hrev) as [[-> _]|[[-> _]|[[-> _]|[[-> _]|[[-> _]|[-> _]]]]]]; cbn; auto 8.
Qed.
(** ** Stack limits *)
Lemma limits_ok b ins h : is_byte b -> instruction b = Some ins -> 0 <= h <= 1024 ->
  checkStackLimits h b = negb (h <? in_args ins) && negb (1024 <? h - in_args ins + in_results ins).
Proof.
  intros hb he hh.
  assert (t : match instruction b with
    | Some i => let '(from, to, d) := computeStackUsage (b mod 0x200) in (from =? - in_args i) && (to =? Z.max 0 (in_results i - in_args i))
    | None => true end = true).
  { clear he ins. revert b hb. apply byte_check. vm_compute. reflexivity. }
  rewrite he in t. unfold checkStackLimits. destruct (computeStackUsage (b mod 0x200)) as [[from to] d]. apply andb_prop in t. destruct t as [t1 t2].
  apply Z.eqb_eq in t1, t2. subst from to. rewrite Z.opp_involutive. f_equal. f_equal.
  destruct (Z.ltb_spec (1024 - Z.max 0 (in_results ins - in_args ins)) h), (Z.ltb_spec 1024 (h - in_args ins + in_results ins)); lia.
Qed.
(** instructions that are not known end with an error *)
Lemma unknown_err b c : is_byte b -> instruction b = None -> execute_op b c = err c.
Proof.
  intros hb. revert b hb. apply (byte_cases (fun b => instruction b = None -> execute_op b c = err c)). cbn [seq map Z.of_nat Pos.of_succ_nat Pos.succ].
  repeat (apply Forall_cons; [let e := fresh in intros e; first [discriminate e|reflexivity]|]). apply Forall_nil.
Qed.
Definition since_err (b : Z) (c : ctx) : Prop := match instruction b with Some i => rev_ge rv (in_since i) = false -> execute_op b c = err c | None => True end.
Lemma since_ok b c : is_byte b -> since_err b c.
Proof.
  revert b. apply (byte_cases (fun b => since_err b c)). cbn [seq map Z.of_nat Pos.of_succ_nat Pos.succ].
  assert (i0 : rev_ge rv Istanbul = true) by (destruct rv; reflexivity).
  pose proof (at_london p rv Hrev) as hl. pose proof (at_shanghai p rv Hrev) as hs. pose proof (at_cancun p rv Hrev) as hc.
  repeat (apply Forall_cons; [unfold since_err; cbn [instruction in_since]; first [exact Logic.I
    | intros e; exfalso; cbn in e; congruence
    | intros e; cbn [in_since] in e; cbn [Lfvm.execute_op]; unfold sinceRevision, opPush0, opMcopy, opTload, opTstore; rewrite ?hl, ?hs, ?hc, e; reflexivity]|]). apply Forall_nil.
Qed.
Definition static_err (b : Z) (c : ctx) : Prop := match instruction b with Some i => in_stateful i && p_static p = true -> execute_op b c = err c | None => True end.
Lemma static_ok b c : is_byte b -> static_err b c.
Proof.
  revert b. apply (byte_cases (fun b => static_err b c)). cbn [seq map Z.of_nat Pos.of_succ_nat Pos.succ].
  repeat (apply Forall_cons; [unfold static_err; cbn [instruction in_stateful]; first [exact Logic.I
    | intros e; exfalso; cbn in e; discriminate e
    | intros e; cbn [in_stateful andb] in e; change (p_static p = true) in e; cbn [Lfvm.execute_op]; cbn; unfold opSstore, opTstore, opLog, genericCreate, opSelfdestruct; rewrite ?e; try destruct (negb _); reflexivity]|]). apply Forall_nil.
Qed.

(** ** Instructions *)
Definition special (b : Z) : bool := (b =? 0x56) || (b =? 0x57) || (b =? 0x58) || ((0x60 <=? b) && (b <=? 0x7F)).
Definition esim (b : Z) : Prop := match instruction b with
  | Some i => rev_ge rv (in_since i) = true -> in_stateful i && p_static p = false -> special b = false ->
      if surcharge b =? 0 then sim (in_args i) (in_results i) (exec b) (execute_op b) else simf rv (in_args i) (in_results i) (surcharge b) (exec b) (execute_op b)
  | None => True end.
Lemma word64 z : 0 <= z < 2 ^ 64 -> is_word z.
Proof. unfold is_word. lia. Qed.
Lemma sim_tx' (q : tx_context -> Z) v' : v' = q tx -> is_word (q tx) -> sim 0 1 (i_tx H q) (pushValue v').
Proof. intros -> h. exact (sim_push (q tx) (q tx) eq_refl h). Qed.
Lemma sim_nop : sim 0 0 (next (W:=W)) ok.
Proof. intros P f c hR hF _ _ hP. eexists. split; [reflexivity|]. split; [|exact hP]. destruct hR. split; assumption. Qed.
Lemma sim_stop : sim 0 0 (fun f : frame => Halt Stopped [] (with_pc (f_pc f + 1) f)) (fun c : ctx => Ok (Ends StStopped c)).
Proof. intros P f c hR hF _ _ hP. exists StStopped, c. split; [reflexivity|]. split; [split; [left|]; reflexivity|]. destruct hR. auto. Qed.
Lemma w_div_range a b : is_word a -> is_word b -> is_word (w_div a b).
Proof.
  unfold is_word, w_div. intros h h2. destruct (Z.eqb_spec b 0); [lia|]. split; [apply Z.div_pos; lia|].
  apply Z.le_lt_trans with a; [|lia]. apply Z.div_le_upper_bound; [lia|]. nia.
Qed.
Lemma mod_range a b : is_word b -> is_word (if b =? 0 then 0 else a mod b).
Proof. unfold is_word. intros h. destruct (Z.eqb_spec b 0); [lia|]. pose proof (Z.mod_pos_bound a b ltac:(lia)). lia. Qed.
Lemma w_mod_range a b : is_word b -> is_word (w_mod a b).
Proof. apply mod_range. Qed.
Lemma w_addmod_range a b n : is_word n -> is_word (w_addmod a b n).
Proof. apply mod_range. Qed.
Lemma w_mulmod_range a b n : is_word n -> is_word (w_mulmod a b n).
Proof. apply mod_range. Qed.
Lemma w_sdiv_range a b : is_word (w_sdiv a b).
Proof. unfold w_sdiv. destruct (b =? 0); [unfold is_word; lia|apply to_word_range]. Qed.
Lemma w_smod_range a b : is_word (w_smod a b).
Proof. unfold w_smod. destruct (b =? 0); [unfold is_word; lia|apply to_word_range]. Qed.
Ltac gated h l := let P := fresh in let f := fresh in let c := fresh in intros P f c; cbn [Lfvm.execute_op]; unfold sinceRevision; rewrite h; match goal with e : rev_ge rv _ = true |- _ => rewrite e end; exact (l P f c).
Lemma esim_all b : is_byte b -> esim b.
Proof.
  pose proof (at_london p rv Hrev) as hl. pose proof (at_shanghai p rv Hrev) as hs. pose proof (at_cancun p rv Hrev) as hc.
  pose proof (mok_recipient _ Hmsg) as hrec. pose proof (mok_sender _ Hmsg) as hsnd. pose proof (mok_value _ Hmsg) as hval. pose proof (mok_input _ Hmsg) as hin. pose proof (mok_input_len _ Hmsg) as hil.
  cbn [message_of msg_recipient msg_sender msg_value msg_input] in hrec, hsnd, hval, hin, hil.
  assert (addr : forall a, is_addr a -> is_word a) by (unfold is_addr, is_word; intros; lia).
  revert b. apply (byte_cases esim). cbn [seq map Z.of_nat Pos.of_succ_nat Pos.succ].
  Ltac one := unfold esim; cbn [instruction]; first [exact Logic.I
    | let h1 := fresh "since" in let h2 := fresh "free" in let h3 := fresh "special" in
      intros h1 h2 h3; cbn [in_since in_stateful andb] in h1, h2; first [discriminate h3 |
      match goal with |- context [surcharge ?b =? 0] => let v := eval vm_compute in (surcharge b) in change (surcharge b) with v end;
      cbn [Z.eqb in_args in_results]]].
  repeat (apply Forall_cons; [one|]); [..|apply Forall_nil].
  - exact sim_stop.
  - apply (sim_binary u_add (fun a b => to_word (a + b))); intros; split; [unfold u_add; rewrite wrap_to_word; reflexivity|apply to_word_range].
  - apply (sim_binary u_mul (fun a b => to_word (a * b))); intros; split; [unfold u_mul; rewrite wrap_to_word; reflexivity|apply to_word_range].
  - apply (sim_binary u_sub (fun a b => to_word (a - b))); intros; split; [reflexivity|apply to_word_range].
  - apply (sim_binary (fun a b => total (u_div a b)) w_div); intros; split; [apply total_div|apply w_div_range; assumption].
  - apply (sim_binary (divrem0 true) w_sdiv); intros; split; [apply divrem0_spec; assumption|apply w_sdiv_range].
  - apply (sim_binary (fun a b => total (u_mod a b)) w_mod); intros; split; [apply total_mod|apply w_mod_range; assumption].
  - apply (sim_binary (divrem0 false) w_smod); intros; split; [apply divrem0_spec; assumption|apply w_smod_range].
  - apply (sim_ternary (fun a b n => total (u_addmod a b n)) w_addmod); intros; split; [apply total_addmod|apply w_addmod_range; assumption].
  - apply (sim_ternary (fun a b n => total (u_mulmod a b n)) w_mulmod); intros; split; [apply total_mulmod|apply w_mulmod_range; assumption].
  - exact sim_exp.
  - apply (sim_binary extendSign w_signextend); intros; split; [apply extendSign_spec; assumption|apply w_signextend_range; assumption].
  - apply (sim_binary (fun a b => b2w (a <? b)) (fun a b => bool_word (a <? b))); intros; split; [reflexivity|apply bool_word_range].
  - apply (sim_binary (fun a b => b2w (b <? a)) (fun a b => bool_word (b <? a))); intros; split; [reflexivity|apply bool_word_range].
  - apply (sim_binary (fun a b => b2w (u_slt a b)) (fun a b => bool_word (signed a <? signed b))); intros; split; [rewrite u_slt_spec by assumption; reflexivity|apply bool_word_range].
  - apply (sim_binary (fun a b => b2w (u_slt b a)) (fun a b => bool_word (signed b <? signed a))); intros; split; [rewrite u_slt_spec by assumption; reflexivity|apply bool_word_range].
  - apply (sim_binary (fun a b => b2w (a =? b)) (fun a b => bool_word (a =? b))); intros; split; [reflexivity|apply bool_word_range].
  - apply (sim_unary (fun a => b2w (a =? 0)) (fun a => bool_word (a =? 0))); intros; split; [reflexivity|apply bool_word_range].
  - apply (sim_binary u_and Z.land); intros; split; [reflexivity|apply land_word; assumption].
  - apply (sim_binary u_or Z.lor); intros; split; [reflexivity|apply lor_word; assumption].
  - apply (sim_binary u_xor Z.lxor); intros; split; [reflexivity|apply lxor_word; assumption].
  - apply (sim_unary u_not (fun a => U - 1 - a)); intros; split; [apply u_not_spec; assumption|unfold is_word, U in *; lia].
  - apply (sim_binary byteOf w_byte); intros; split; [apply byteOf_spec; assumption|apply w_byte_range].
  - apply (sim_binary shlOf w_shl); intros; split; [apply shlOf_spec; assumption|apply w_shl_range].
  - apply (sim_binary shrOf w_shr); intros; split; [apply shrOf_spec; assumption|apply w_shr_range; unfold is_word in *; lia].
  - apply (sim_binary sarOf w_sar); intros; split; [apply sarOf_spec; assumption|apply w_sar_range].
  - exact (sim_sha3 keccak Hkeccak).
  - apply sim_push; [reflexivity|apply addr; exact hrec].
  - apply sim_account; [exact Hrev|]; intros w a; split; [reflexivity|exact (hok_get_balance _ Hhost w a)].
  - apply sim_tx'; [reflexivity|apply addr; apply (tok_origin tx Htx)].
  - apply sim_push; [reflexivity|apply addr; exact hsnd].
  - apply sim_push; [reflexivity|exact hval].
  - exact (sim_calldataload p Hmsg).
  - apply sim_push; [apply u64_small; cbn [message_of msg_input]; pose proof (zlen_nonneg (p_input p)); lia|apply word64; cbn [message_of msg_input]; pose proof (zlen_nonneg (p_input p)); lia].
  - exact (sim_copy (p_input p) hin hil).
  - apply sim_push; [apply u64_small; pose proof (zlen_nonneg (p_code p)); lia|apply word64; pose proof (zlen_nonneg (p_code p)); lia].
  - exact (sim_copy (p_code p) Hcode Hlen).
  - apply sim_tx'; [reflexivity|apply (tok_gas_price tx Htx)].
  - apply sim_account; [exact Hrev|]; intros w a; pose proof (hok_get_code_size _ Hhost w a) as hz; split; [apply u64_small; exact hz|apply word64; exact hz].
  - exact (sim_extcodecopy rc tx p rv Hrev Hhost Hcodes).
  - apply (sim_push' (fun c => fits64 (zlen (c_ret c))) (fun f => zlen (f_ret f))); intros f c hR _; rewrite (r_ret _ _ hR); pose proof (r_rlen _ _ hR); pose proof (zlen_nonneg (f_ret f)); split; [apply u64_small; lia|apply word64; lia].
  - exact sim_returndatacopy.
  - apply sim_account; [exact Hrev|]; intros w a; split; [reflexivity|exact (hok_get_code_hash _ Hhost w a)].
  - exact (sim_blockhash rc tx Hhost).
  - apply sim_tx'; [reflexivity|apply addr; apply (tok_coinbase tx Htx)].
  - apply sim_tx'; [apply u64_small; pose proof (tok_timestamp tx Htx); lia|apply word64; pose proof (tok_timestamp tx Htx); lia].
  - apply sim_tx'; [apply u64_small; pose proof (tok_number tx Htx); lia|apply word64; pose proof (tok_number tx Htx); lia].
  - apply sim_tx'; [reflexivity|apply (tok_prev_randao tx Htx)].
  - apply sim_tx'; [apply u64_small; pose proof (tok_gas_limit tx Htx); lia|apply word64; pose proof (tok_gas_limit tx Htx); lia].
  - apply sim_tx'; [reflexivity|apply (tok_chain_id tx Htx)].
  - apply (sim_push' (fun c => rc_balance rc (c_world c) (p_recipient p)) (fun f => h_get_balance H (f_world f) (self msg))); intros f c hR _; rewrite (r_world _ _ hR); split; [reflexivity|exact (hok_get_balance _ Hhost _ _)].
  - gated hl (sim_tx' tx_base_fee (tx_base_fee tx) eq_refl (tok_base_fee tx Htx)).
  - gated hc (sim_blobhash rc tx p Hhost).
  - gated hc (sim_tx' tx_blob_base_fee (tx_blob_base_fee tx) eq_refl (tok_blob_base_fee tx Htx)).
  - exact sim_pop.
  - exact sim_mload.
  - exact sim_mstore.
  - exact sim_mstore8.
  - exact (sim_sload rc tx p rv Hrev Hhost).
  - exact (sim_sstore rc tx p rv Hrev Hsst free).
  - apply (sim_push' (fun c => zlen (c_store c)) f_active); intros f c hR hF; rewrite (r_len _ _ hR); split; [reflexivity|]; destruct hF as [? ? ?]; pose proof (zlen_nonneg (c_store c)); pose proof (r_len _ _ hR); assert (hm : Gmem (f_active f) < 2 ^ 54) by lia; pose proof (size_small (f_active f) ltac:(lia) hm); apply word64; lia.
  - apply (sim_push' (fun c => fits64 (c_gas c)) f_gas); intros f c hR hF; rewrite (r_gas _ _ hR); destruct hF as [? ? ?]; pose proof (zlen_nonneg (c_store c)); pose proof (r_len _ _ hR); pose proof (Gmem_nonneg (f_active f) ltac:(lia)); split; [apply u64_small; lia|apply word64; lia].
  - exact sim_nop.
  - exact (sim_tload rc tx p rv Hrev Hhost since).
  - exact (sim_tstore rc tx p rv Hrev since free).
  - exact (sim_mcopy p rv Hrev since).
  - intros P f c; cbn [Lfvm.execute_op]; unfold opPush0; rewrite hs, since; exact (sim_push 0 0 eq_refl ltac:(unfold is_word; lia) P f c).
  - exact (sim_dup 1 ltac:(lia)).
  - exact (sim_dup 2 ltac:(lia)).
  - exact (sim_dup 3 ltac:(lia)).
  - exact (sim_dup 4 ltac:(lia)).
  - exact (sim_dup 5 ltac:(lia)).
  - exact (sim_dup 6 ltac:(lia)).
  - exact (sim_dup 7 ltac:(lia)).
  - exact (sim_dup 8 ltac:(lia)).
  - exact (sim_dup 9 ltac:(lia)).
  - exact (sim_dup 10 ltac:(lia)).
  - exact (sim_dup 11 ltac:(lia)).
  - exact (sim_dup 12 ltac:(lia)).
  - exact (sim_dup 13 ltac:(lia)).
  - exact (sim_dup 14 ltac:(lia)).
  - exact (sim_dup 15 ltac:(lia)).
  - exact (sim_dup 16 ltac:(lia)).
  - exact (sim_swap 1 ltac:(lia)).
  - exact (sim_swap 2 ltac:(lia)).
  - exact (sim_swap 3 ltac:(lia)).
  - exact (sim_swap 4 ltac:(lia)).
  - exact (sim_swap 5 ltac:(lia)).
  - exact (sim_swap 6 ltac:(lia)).
  - exact (sim_swap 7 ltac:(lia)).
  - exact (sim_swap 8 ltac:(lia)).
  - exact (sim_swap 9 ltac:(lia)).
  - exact (sim_swap 10 ltac:(lia)).
  - exact (sim_swap 11 ltac:(lia)).
  - exact (sim_swap 12 ltac:(lia)).
  - exact (sim_swap 13 ltac:(lia)).
  - exact (sim_swap 14 ltac:(lia)).
  - exact (sim_swap 15 ltac:(lia)).
  - exact (sim_swap 16 ltac:(lia)).
  - exact (sim_log rc tx p 0 ltac:(lia) free).
  - exact (sim_log rc tx p 1 ltac:(lia) free).
  - exact (sim_log rc tx p 2 ltac:(lia) free).
  - exact (sim_log rc tx p 3 ltac:(lia) free).
  - exact (sim_log rc tx p 4 ltac:(lia) free).
  - exact (sim_create rc tx Call p rv Hrev Hhost Hmsg Hcalls Hdepth false free).
  - exact (sim_opcall rc tx Call p rv Hrev Hmsg Hcalls Hdepth).
  - exact (sim_call rc tx Call p rv Hrev Hmsg Hcalls Hdepth OpCallCode ltac:(discriminate)).
  - exact (sim_return Returned StReturned (or_introl (conj eq_refl eq_refl))).
  - exact (sim_call rc tx Call p rv Hrev Hmsg Hcalls Hdepth OpDelegateCall ltac:(discriminate)).
  - exact (sim_create rc tx Call p rv Hrev Hhost Hmsg Hcalls Hdepth true free).
  - exact (sim_call rc tx Call p rv Hrev Hmsg Hcalls Hdepth OpStaticCall ltac:(discriminate)).
  - exact (sim_return Reverted StReverted (or_intror (conj eq_refl eq_refl))).
  - exact (sim_selfdestruct rc tx p rv Hrev Hhost Hacc free).
Qed.
End Exec.
