(** The rules of the conformance tests describe the EVM: values, stack, memory, storage, jumps. *)
From Verif Require Import Base Host Uint256 SpecEvm SpecVm ArithFacts MemFacts JumpFacts GoAdapter GoStorage LfvmCode Lfvm LfvmSim LfvmOps SpecLfvm Ct SpecCt PropFacts2 CtRules SpecRules CtRuleFacts CtMemFacts.
From Coq Require Import Lia ZArith List Bool.
Import ListNotations.
Open Scope Z_scope.

Ltac frames := unfold SpecEvm.push, un, bin, tern, yield, next, bad, i_tx, with_pc, with_stack, with_gas, with_mem, with_active, with_ret, add_refund, with_world; cbn [f_pc f_gas f_stack f_mem f_active f_ret f_refund f_world].
Ltac each := repeat match goal with |- Forall _ (_ ++ _) => apply Forall_app; split end.
Ltac states := repeat (progress (autorewrite with ct; cbn [rbind])).

Section Sound.
Variable tx : tx_context.
Variable keccak hash : list Z -> Z.
Hypothesis Htx : tx_ok tx.
Notation H := (go_host (ct_rc tx) tx).
Notation call := (answers ct_Call).
Notation msg_of b := (message_of (ToVmParameters hash b)).
Notation Step := (Step tx keccak hash).
Notation Exec := (Exec tx keccak hash).
Notation rule_ok := (rule_ok tx keccak hash).
Notation holds := (holds tx).

(** the state and the frame when the fixed fee has been paid *)
Definition paid (b : state) (st : list Z) (fee : Z) : state := mk b (ct_pc b + 1) (ct_gas b - fee) (ct_refund b) st (ct_mem b) (ct_last b) (ct_world b).
Definition Paid (b : state) (st : list Z) (fee : Z) : frame ctw := mkFrame (ct_pc b) (ct_gas b - fee) st (data_at (ct_mem b)) (zlen (ct_mem b)) (ct_last b) (ct_refund b) (ct_world b).

Record ctx_ok (b : state) (rv : revision) (st : list Z) : Prop := mkCtxOk {
  co_test : test_state b;
  co_rev : In (ct_revision b, rv) revisions;
  co_stack : rev (ct_stack b) = st;
  co_words : Forall is_word st;
  co_code : IsCodeAt (ct_code b) (ct_pc b) = true;
  co_pc : 0 <= ct_pc b < 65500;
  co_rel : mem_rel (ct_mem b) (data_at (ct_mem b)) (zlen (ct_mem b));
  co_gas : 0 <= ct_gas b;
  co_price : ct_gas b + Gmem (zlen (ct_mem b)) < 2 ^ 54;
  co_gas_small : ct_gas b < 2 ^ 54;
}.

Lemma gen_ok i it : SpecEvm.instruction (i_op i) = Some it -> i_op i <> 0 -> 0 <= in_fee it <= i_gas i -> i_pops i <= in_args it ->
  (i_pops i < i_pushes i -> in_results it - in_args it = i_pushes i - i_pops i /\ i_pushes i = i_pops i + 1) ->
  (in_results it <= in_args it \/ i_pops i < i_pushes i) ->
  (forall b rv, In (ct_revision b, rv) revisions -> Forall (holds b) (i_conditions i) -> passes b rv it /\ i_pops i = in_args it \/ (exists s', forall s, i_effect i s = FailEffect s' \/ i_effect i s = FailEffect s) /\ in_stateful it = true /\ ct_readonly b = true) ->
  (forall b rv st, ctx_ok b rv st -> Forall (holds b) (i_conditions i) -> code_at (ct_code b) (ct_pc b) = i_op i -> passes b rv it ->
     in_args it <= zlen st -> zlen st - in_args it + in_results it <= 1024 -> in_fee it <= ct_gas b < i_gas i -> exists e f, Exec b rv (i_op i) (Paid b st (in_fee it)) = Fail e f) ->
  (forall b rv st, ctx_ok b rv st -> Forall (holds b) (i_conditions i) -> code_at (ct_code b) (ct_pc b) = i_op i -> passes b rv it ->
     in_args it <= zlen st -> zlen st - in_args it + in_results it <= 1024 -> i_gas i <= ct_gas b ->
     agrees b (i_effect i (paid b st (i_gas i))) (Exec b rv (i_op i) (Paid b st (in_fee it)))) ->
  Forall rule_ok (rulesFor i).
Proof.
  intros hi h0 hf hp hs hs2 hpass hA hD.
  assert (ctx : forall b rv, test_state b -> In (ct_revision b, rv) revisions -> IsCodeAt (ct_code b) (ct_pc b) = true -> code_at (ct_code b) (ct_pc b) = i_op i -> ctx_ok b rv (rev (ct_stack b))).
  { intros b rv ht hr hc hop. pose proof (tst_ok b ht) as ok. split; try assumption; try reflexivity.
    - apply Forall_rev. apply (ctk_words b ok).
    - pose proof (tst_pc b ht). assert (ct_pc b < zlen (ct_code b)). { destruct (Z_lt_ge_dec (ct_pc b) (zlen (ct_code b))); [assumption|]. unfold code_at in hop. rewrite data_at_out in hop by lia. congruence. } pose proof (ctk_size b ok). lia.
    - apply start_rel. exact ht.
    - apply (ctk_gas b ok).
    - apply (ctk_mem_price b ok).
    - pose proof (ctk_mem_price b ok). pose proof (Gmem_nonneg (zlen (ct_mem b)) (zlen_nonneg _)). lia. }
  assert (hl : forall b : state, zlen (rev (ct_stack b)) = zlen (ct_stack b)) by (intros; unfold zlen; rewrite rev_length; reflexivity).
  apply (rulesFor_ok tx keccak hash i it hi); [lia|exact hp|exact hs| |].
  - intros b rv ht hr hc hcode hop h1 h2 hg. destruct (Z_lt_ge_dec (ct_gas b) (in_fee it)) as [hlt|hge].
    + apply (step_fails tx keccak hash b rv _ _ ht hop hi). auto.
    + destruct (hpass b rv hr hc) as [[hps _]|[_ [k1 k2]]].
      * rewrite (step_exec tx keccak hash b rv _ _ ht hop hi hps h1 h2). unfold charge. cbn [FrameIs f_gas]. destruct (Z.ltb_spec (ct_gas b) (in_fee it)); [lia|].
        apply (hA b rv _ (ctx b rv ht hr hcode hop) hc hop hps); rewrite ?hl; lia.
      * apply (step_fails tx keccak hash b rv _ _ ht hop hi). right. left. rewrite k1, k2. reflexivity.
  - intros b rv ht hr hc hcode hop h1 h2 hg. destruct (hpass b rv hr hc) as [[hps hpe]|[[s' k0] [k1 k2]]].
    + rewrite hpe in *. assert (h3 : zlen (ct_stack b) - in_args it + in_results it <= 1024) by (destruct hs2 as [hs2|hs2]; [pose proof (ctk_height b (tst_ok b ht)); lia|specialize (hs hs2); lia]).
      rewrite (step_exec tx keccak hash b rv _ _ ht hop hi hps h1 h3). unfold charge. cbn [FrameIs f_gas]. destruct (Z.ltb_spec (ct_gas b) (in_fee it)); [lia|].
      pose proof (ctx b rv ht hr hcode hop) as hctx.
      assert (e : set_pc (u16 (ct_pc b + 1)) (set_gas (s64 (ct_gas b - i_gas i)) b) = paid b (rev (ct_stack b)) (i_gas i)).
      { unfold paid. rewrite s64_small by (pose proof (co_gas_small _ _ _ hctx); lia). unfold u16. rewrite Z.mod_small by (pose proof (co_pc _ _ _ hctx); lia).
        apply mk_start; [apply (ctk_running b (tst_ok b ht))|apply (tst_ret b ht)]. }
      rewrite e. apply hD; rewrite ?hl; assumption.
    + destruct (step_fails tx keccak hash b rv _ _ ht hop hi) as (e & f & ->); [right; left; rewrite k1, k2; reflexivity|].
      destruct (k0 (set_pc (u16 (ct_pc b + 1)) (set_gas (s64 (ct_gas b - i_gas i)) b))) as [-> | ->]; apply agrees_fail.
Qed.

(** instructions of all revisions that change nothing *)
Lemma plain_ok i a r fee : SpecEvm.instruction (i_op i) = Some (mkInstr a r fee Istanbul false) -> i_op i <> 0 -> 0 <= fee -> i_gas i = fee -> i_pops i = a -> i_pushes i = r -> r <= a + 1 ->
  (forall b rv st, ctx_ok b rv st -> Forall (holds b) (i_conditions i) -> code_at (ct_code b) (ct_pc b) = i_op i ->
     a <= zlen st -> zlen st - a + r <= 1024 -> fee <= ct_gas b -> agrees b (i_effect i (paid b st fee)) (Exec b rv (i_op i) (Paid b st fee))) ->
  Forall rule_ok (rulesFor i).
Proof.
  intros hi h0 hf e1 e2 e3 hr hD. apply (gen_ok i _ hi h0); cbn [in_fee in_args in_results in_since in_stateful]; try lia.
  - intros b rv _ _. left. split; [|exact e2]. split; [destruct rv; reflexivity|discriminate].
  - intros b rv st hc hh hop _ hl1 hl2 hg. rewrite e1 in *. apply hD; assumption.
Qed.

(** ** Words *)
Lemma dynamic_ok op cost qq dyn q (fee : Z -> Z) : SpecEvm.instruction op = Some (mkInstr 2 1 cost Istanbul false) -> op <> 0 -> 0 <= cost ->
  (forall b rv f, Exec b rv op f = match f_stack f with x :: y :: s => charge (fee y) f (yield (q x y :: s)) | _ => bad f end) ->
  (forall x y, is_word x -> is_word y -> qq x y = q x y /\ dyn x y = fee y /\ 0 <= fee y) -> Forall rule_ok (binaryOpWithDynamicCost op cost qq dyn).
Proof.
  intros hi h0 hc hx hq. eapply plain_ok; [exact hi|assumption|assumption|reflexivity|reflexivity|reflexivity|lia|]. intros b rv st co _ hop h1 h2 hg. cbn [i_op i_effect] in *. rewrite hx. unfold Paid, paid. cbn [f_stack].
  destruct st as [|x [|y st]]; try (cbn in h1; lia). pose proof (co_words _ _ _ co) as hw. inversion hw as [|? ? hw1 hw2]; subst. inversion hw2 as [|? ? hw3 hw4]; subst. destruct (hq x y hw1 hw3) as (e1 & e2 & e3).
  states. unfold pay, charge. states. cbn [f_gas]. rewrite e1, e2. pose proof (co_gas_small _ _ _ co). destruct (Z.ltb_spec (ct_gas b - cost) (fee y)); [apply agrees_failed|]. rewrite s64_small by lia. frames. states. apply agrees_next. apply co.
Qed.
Lemma binary_ok op cost qq q : SpecEvm.instruction op = Some (mkInstr 2 1 cost Istanbul false) -> op <> 0 -> 0 <= cost ->
  (forall b rv f, Exec b rv op f = bin q f) -> (forall x y, is_word x -> is_word y -> qq x y = q x y) -> Forall rule_ok (binaryOp op cost qq).
Proof.
  intros hi h0 hc hx hq. eapply plain_ok; [exact hi|assumption|assumption|reflexivity|reflexivity|reflexivity|lia|]. intros b rv st co _ hop h1 h2 hg. cbn [i_op i_effect] in *. rewrite hx. unfold Paid, paid.
  destruct st as [|x [|y st]]; try (cbn in h1; lia). pose proof (co_words _ _ _ co) as hw. inversion hw as [|? ? hw1 hw2]; subst. inversion hw2 as [|? ? hw3 hw4]; subst.
  states. unfold pay. states. pose proof (co_gas_small _ _ _ co). destruct (Z.ltb_spec (ct_gas b - cost) 0); [lia|]. rewrite Z.sub_0_r, s64_small by lia. frames. states. rewrite hq by assumption. apply agrees_next. apply co.
Qed.
Lemma unary_ok op cost qq q : SpecEvm.instruction op = Some (mkInstr 1 1 cost Istanbul false) -> op <> 0 -> 0 <= cost ->
  (forall b rv f, Exec b rv op f = un q f) -> (forall x, is_word x -> qq x = q x) -> Forall rule_ok (unaryOp op cost qq).
Proof.
  intros hi h0 hc hx hq. eapply plain_ok; [exact hi|assumption|assumption|reflexivity|reflexivity|reflexivity|lia|]. intros b rv st co _ hop h1 h2 hg. cbn [i_op i_effect] in *. rewrite hx. unfold Paid, paid.
  destruct st as [|x st]; try (cbn in h1; lia). pose proof (co_words _ _ _ co) as hw. inversion hw as [|? ? hw1 hw2]; subst. frames. states. rewrite hq by assumption. apply agrees_next. apply co.
Qed.
Lemma ternary_ok op cost qq q : SpecEvm.instruction op = Some (mkInstr 3 1 cost Istanbul false) -> op <> 0 -> 0 <= cost ->
  (forall b rv f, Exec b rv op f = tern q f) -> (forall x y z, qq x y z = q x y z) -> Forall rule_ok (trinaryOp op cost qq).
Proof.
  intros hi h0 hc hx hq. eapply plain_ok; [exact hi|assumption|assumption|reflexivity|reflexivity|reflexivity|lia|]. intros b rv st co _ hop h1 h2 hg. cbn [i_op i_effect] in *. rewrite hx. unfold Paid, paid.
  destruct st as [|x [|y [|z st]]]; try (cbn in h1; lia). frames. states. rewrite hq by assumption. apply agrees_next. apply co.
Qed.
Lemma value_ok op cost v q : SpecEvm.instruction op = Some (mkInstr 0 1 cost Istanbul false) -> op <> 0 -> 0 <= cost ->
  (forall b rv f, Exec b rv op f = SpecEvm.push (q b f) f) ->
  (forall b rv st, ctx_ok b rv st -> v (paid b st cost) = q b (Paid b st cost)) -> Forall rule_ok (valueOp op cost [] v).
Proof.
  intros hi h0 hc hx hq. eapply plain_ok; [exact hi|assumption|assumption|reflexivity|reflexivity|reflexivity|lia|]. intros b rv st co _ hop h1 h2 hg. cbn [i_op i_effect] in *. rewrite hx, (hq b rv st co). unfold paid. frames. states. apply agrees_next'; try reflexivity. apply co.
Qed.


Ltac lit := try reflexivity; try lia.
Lemma be_bytes_S n e : be_bytes (S n) e = (e / 256 ^ Z.of_nat n) mod 256 :: be_bytes n e.
Proof.
  unfold be_bytes. cbn [seq map]. f_equal; [replace (S n - 1 - 0)%nat with n by lia; reflexivity|]. rewrite <- seq_shift, map_map. apply map_ext. intros i. replace (S n - 1 - S i)%nat with (n - 1 - i)%nat by lia. reflexivity.
Qed.
Lemma exp_cost_spec n : forall e, 0 <= e < 256 ^ Z.of_nat n -> (n <= 32)%nat -> exp_cost_from (32 - n) (be_bytes n e) = 50 * byte_count e.
Proof.
  induction n as [|n ih]; intros e he hn; [assert (e = 0) by lia; subst e; reflexivity|]. rewrite be_bytes_S. cbn [exp_cost_from].
  assert (hp : 0 < 256 ^ Z.of_nat n) by (apply Z.pow_pos_nonneg; lia). rewrite Nat2Z.inj_succ, Z.pow_succ_r in he by lia.
  assert (hd : 0 <= e / 256 ^ Z.of_nat n < 256) by (split; [apply Z.div_pos; lia|apply Z.div_lt_upper_bound; lia]). rewrite Z.mod_small by lia.
  destruct (Z.eqb_spec (e / 256 ^ Z.of_nat n) 0) as [h0|h0].
  - replace (S (32 - S n)) with (32 - n)%nat by lia. apply ih; [|lia]. pose proof (Z.div_mod e (256 ^ Z.of_nat n) ltac:(lia)). pose proof (Z.mod_pos_bound e (256 ^ Z.of_nat n) ltac:(lia)). lia.
  - assert (hge : 256 ^ Z.of_nat n <= e). { destruct (Z_lt_ge_dec e (256 ^ Z.of_nat n)); [|lia]. rewrite Z.div_small in h0 by lia. contradiction. }
    unfold byte_count. destruct (Z.eqb_spec e 0); [lia|]. assert (hl : 8 * Z.of_nat n <= Z.log2 e < 8 * Z.of_nat n + 8).
    { assert (ep : 256 ^ Z.of_nat n = 2 ^ (8 * Z.of_nat n)) by (rewrite Z.pow_mul_r by lia; reflexivity). split.
      - apply Z.log2_le_pow2; lia.
      - apply Z.log2_lt_pow2; [lia|]. rewrite Z.pow_add_r by lia. change (2 ^ 8) with 256. lia. }
    assert (Z.log2 e / 8 = Z.of_nat n) by (symmetry; apply Z.div_unique with (r := Z.log2 e - 8 * Z.of_nat n); lia). lia.
Qed.
Lemma expCost_spec x e : is_word e -> expCost x e = 50 * byte_count e.
Proof. intros h. unfold expCost. rewrite bytes32_be. apply (exp_cost_spec 32); [|lia]. exact h. Qed.
Lemma byteAt_spec i x : is_word i -> byteAt i x = w_byte i x.
Proof.
  intros h. unfold is_word in h. unfold byteAt, w_byte. destruct (Z.ltb_spec 31 i); destruct (Z.ltb_spec i 32); try lia; try reflexivity. rewrite bytes32_be. unfold be_bytes.
  rewrite (nth_indep _ 0 ((fun k => (x / 256 ^ Z.of_nat (32 - 1 - k)) mod 256) 0%nat)) by (rewrite map_length, seq_length; lia).
  rewrite (map_nth (fun k => (x / 256 ^ Z.of_nat (32 - 1 - k)) mod 256)). rewrite seq_nth by lia. cbv beta. replace (Z.of_nat (32 - 1 - (0 + Z.to_nat i))) with (31 - i) by lia. reflexivity.
Qed.
Lemma arithmetic_ok : Forall rule_ok arithmeticRules.
Proof.
  unfold arithmeticRules. each.
  - apply (binary_ok _ _ _ (fun a b => to_word (a + b))); lit.
  - apply (binary_ok _ _ _ (fun a b => to_word (a * b))); lit.
  - apply (binary_ok _ _ _ (fun a b => to_word (a - b))); lit.
  - apply (binary_ok _ _ _ w_div); lit. intros. apply total_div.
  - apply (binary_ok _ _ _ w_sdiv); lit. intros. apply divrem0_spec; assumption.
  - apply (binary_ok _ _ _ w_mod); lit. intros. apply total_mod.
  - apply (binary_ok _ _ _ w_smod); lit. intros. apply divrem0_spec; assumption.
  - apply (ternary_ok _ _ _ w_addmod); lit. intros. apply total_addmod.
  - apply (ternary_ok _ _ _ w_mulmod); lit. intros. apply total_mulmod.
  - apply (dynamic_ok _ _ _ _ (fun a x => to_word (a ^ x)) (fun x => 50 * byte_count x)); lit. intros x y hx hy. split; [|split; [apply expCost_spec; exact hy|]].
    + apply u_exp_spec; assumption.
    + pose proof (byte_count_range y hy). lia.
  - apply (binary_ok _ _ _ w_signextend); lit. intros. apply extendSign_spec; assumption.
  - apply (binary_ok _ _ _ (fun a b => bool_word (a <? b))); lit.
  - apply (binary_ok _ _ _ (fun a b => bool_word (b <? a))); lit.
  - apply (binary_ok _ _ _ (fun a b => bool_word (signed a <? signed b))); lit. intros. rewrite u_slt_spec by assumption. reflexivity.
  - apply (binary_ok _ _ _ (fun a b => bool_word (signed b <? signed a))); lit. intros. rewrite u_slt_spec by assumption. reflexivity.
  - apply (binary_ok _ _ _ (fun a b => bool_word (a =? b))); lit.
  - apply (unary_ok _ _ _ (fun a => bool_word (a =? 0))); lit.
  - apply (binary_ok _ _ _ Z.land); lit.
  - apply (binary_ok _ _ _ Z.lor); lit.
  - apply (binary_ok _ _ _ Z.lxor); lit.
  - apply (unary_ok _ _ _ (fun a => U - 1 - a)); lit. intros. apply u_not_spec; assumption.
  - apply (binary_ok _ _ _ w_byte); lit. intros. apply byteAt_spec; assumption.
  - apply (binary_ok _ _ _ w_shl); lit. intros. apply shlOf_spec; assumption.
  - apply (binary_ok _ _ _ w_shr); lit. intros. apply shrOf_spec; assumption.
  - apply (binary_ok _ _ _ w_sar); lit. intros. apply sarOf_spec; assumption.
Qed.

(** ** Revisions *)
Lemma rev_in (b : state) rv : In (ct_revision b, rv) revisions ->
  (ct_revision b = 0 /\ rv = Istanbul) \/ (ct_revision b = 1 /\ rv = Berlin) \/ (ct_revision b = 2 /\ rv = London) \/
  (ct_revision b = 3 /\ rv = Paris) \/ (ct_revision b = 4 /\ rv = Shanghai) \/ (ct_revision b = 5 /\ rv = Cancun).
Proof. cbn. intros h. repeat destruct h as [h|h]; try injection h as <- <-; tauto. Qed.
Definition from_rev (r : revision) : Z := match r with Istanbul => 0 | Berlin => 1 | London => 2 | Paris => 3 | Shanghai => 4 | Cancun => 5 end.
Lemma rev_at (b : state) rv r : In (ct_revision b, rv) revisions -> rev_ge rv r = (from_rev r <=? ct_revision b).
Proof. intros h. destruct (rev_in b rv h) as [[-> ->]|[[-> ->]|[[-> ->]|[[-> ->]|[[-> ->]|[-> ->]]]]]]; destruct r; reflexivity. Qed.
Lemma too_early lo hi op i rest : SpecEvm.instruction op = Some i -> hi < from_rev (in_since i) -> rule_ok (mkRule (RevisionBounds lo hi :: Running :: OpIs op :: rest) FailEffect).
Proof.
  intros hi0 hlt b rv ht hr hc. cbn [r_conditions r_effect] in *. rewrite !Forall_cons_iff in hc. destruct hc as (c1 & _ & c3 & _). rewrite holds_op in c3 by apply (tst_pc b ht). apply holds_rev in c1.
  destruct (step_fails tx keccak hash b rv _ _ ht (proj2 c3) hi0) as (e & f & ->); [|apply agrees_fail]. left. rewrite (rev_at b rv) by exact hr. lia.
Qed.
Lemma since_ok i a r fee since st : SpecEvm.instruction (i_op i) = Some (mkInstr a r fee since st) -> i_op i <> 0 -> 0 <= fee -> i_gas i = fee -> i_pops i = a -> i_pushes i = r -> r <= a + 1 ->
  (forall b rv, In (ct_revision b, rv) revisions -> Forall (holds b) (i_conditions i) -> from_rev since <= ct_revision b /\ (st = true -> ct_readonly b = false)) ->
  (forall b rv st', ctx_ok b rv st' -> Forall (holds b) (i_conditions i) -> code_at (ct_code b) (ct_pc b) = i_op i ->
     a <= zlen st' -> zlen st' - a + r <= 1024 -> fee <= ct_gas b -> agrees b (i_effect i (paid b st' fee)) (Exec b rv (i_op i) (Paid b st' fee))) ->
  Forall rule_ok (rulesFor i).
Proof.
  intros hi h0 hf e1 e2 e3 hr hp hD. apply (gen_ok i _ hi h0); cbn [in_fee in_args in_results in_since in_stateful]; try lia.
  - intros b rv hin hc. left. split; [|exact e2]. destruct (hp b rv hin hc) as [p1 p2]. split; cbn [in_since in_stateful]; [rewrite (rev_at b rv _ hin); lia|exact p2].
  - intros b rv st' hc hh hop _ hl1 hl2 hg. rewrite e1 in *. apply hD; assumption.
Qed.
Lemma since_value_ok op cost v q since : SpecEvm.instruction op = Some (mkInstr 0 1 cost since false) -> op <> 0 -> 0 <= cost ->
  (forall b rv f, Exec b rv op f = SpecEvm.push (q b f) f) ->
  (forall b rv st, ctx_ok b rv st -> v (paid b st cost) = q b (Paid b st cost)) -> Forall rule_ok (valueOp op cost [RevisionBounds (from_rev since) 5] v).
Proof.
  intros hi h0 hc hx hq. eapply since_ok; [exact hi|assumption|assumption|reflexivity|reflexivity|reflexivity|lia| |].
  - intros b rv _ h. cbn [i_conditions] in h. rewrite Forall_cons_iff in h. destruct h as [h _]. apply holds_rev in h. split; [lia|discriminate].
  - intros b rv st co _ hop h1 h2 hg. cbn [i_op i_effect] in *. rewrite hx, (hq b rv st co). unfold paid. frames. states. apply agrees_next'; try reflexivity. apply co.
Qed.

(** ** Values of the environment *)
Ltac val q := apply (value_ok _ _ _ q); [reflexivity|discriminate|lia|reflexivity|].
Ltac opened := let b := fresh "b" in intros b rv st co hc hop h1 h2 hg; cbn [i_op i_effect i_conditions] in *; unfold G_base, G_verylow, G_low, G_mid, G_high in *; unfold CtMemFacts.Exec; cbn [exec]; unfold Paid, paid; pose proof (co_words _ _ _ co) as hw; pose proof (co_gas_small _ _ _ co) as hgs; pose proof (co_gas _ _ _ co) as hg0; pose proof (co_price _ _ _ co) as hprice; pose proof (co_rel _ _ _ co) as hrel; pose proof (mem_small _ _ _ _ hrel hg0 hprice) as hsmall.
Ltac num := vm_compute; discriminate.
Ltac entry_ok := eapply plain_ok; [reflexivity|discriminate|num|reflexivity|reflexivity|reflexivity|num|opened].
Lemma environment_ok : Forall rule_ok (environmentRules tx).
Proof.
  destruct Htx. unfold environmentRules. each.
  - val (fun (b : state) (f : frame ctw) => ct_self b). intros. unfold paid. states. reflexivity.
  - val (fun (b : state) (f : frame ctw) => tx_origin tx). reflexivity.
  - val (fun (b : state) (f : frame ctw) => ct_caller b). intros. unfold paid. states. reflexivity.
  - val (fun (b : state) (f : frame ctw) => ct_value b). intros. unfold paid. states. reflexivity.
  - val (fun (b : state) (f : frame ctw) => tx_number tx). intros. apply u64_small. lia.
  - entry_ok. destruct st as [|n st]; [cbn in h1; lia|]. rewrite !Forall_cons_iff in hw. destruct hw as [hw _]. unfold is_word in hw.
    rewrite Forall_cons_iff in hc. destruct hc as [hc _]. unfold CtRuleFacts.holds in hc. cbn [check] in hc. apply on_param in hc; [|lia]. destruct hc as (v & e1 & e2). rewrite (co_stack _ _ _ co) in e1. injection e1 as <-.
    unfold isUint64 in e2. rewrite !andb_true_iff in e2. destruct e2 as [[e2 e3] e4]. unfold i_blockhash. frames. states. cbn [h_tx_context h_block_hash go_host ct_rc rc_block_hash].
    assert (ea : 256 <=? u64 (u64 (u64 (tx_number tx) - u64 n) - 1) = false).
    { rewrite (u64_small (tx_number tx)), (u64_small n) by lia. rewrite (u64_small (tx_number tx - n)) by (destruct (256 <? tx_number tx); lia). rewrite u64_small by (destruct (256 <? tx_number tx); lia). destruct (256 <? tx_number tx) eqn:e9; lia. }
    rewrite ea. assert (eb : (tx_number tx - 256 <=? n) && (n <? tx_number tx) = true) by (destruct (256 <? tx_number tx) eqn:e9; lia). rewrite eb. rewrite (s64_small (tx_number tx)) by lia.
    assert (ec : (n <? (if 256 <? tx_number tx then tx_number tx - 256 else 0)) || (tx_number tx <=? n) = false) by (destruct (256 <? tx_number tx) eqn:e9; lia). rewrite ec.
    rewrite (u64_small (tx_number tx)), (u64_small n) by lia. rewrite (u64_small (tx_number tx - n)) by lia. rewrite u64_small by lia. states. apply agrees_next. exact hrel.
  - entry_ok. destruct st as [|n st]; [cbn in h1; lia|]. rewrite !Forall_cons_iff in hw. destruct hw as [hw _]. unfold is_word in hw.
    rewrite Forall_cons_iff in hc. destruct hc as [hc _]. unfold CtRuleFacts.holds in hc. cbn [check] in hc. apply on_param in hc; [|lia]. destruct hc as (v & e1 & e2). rewrite (co_stack _ _ _ co) in e1. injection e1 as <-.
    unfold isUint64 in e2. unfold i_blockhash. frames. states. cbn [h_tx_context h_block_hash go_host ct_rc rc_block_hash].
    assert (eb : (tx_number tx - 256 <=? n) && (n <? tx_number tx) = false) by (destruct (256 <? tx_number tx) eqn:e9; lia). rewrite eb. states. apply agrees_next. exact hrel.
  - val (fun (b : state) (f : frame ctw) => tx_coinbase tx). reflexivity.
  - val (fun (b : state) (f : frame ctw) => tx_gas_limit tx). intros. apply u64_small. lia.
  - val (fun (b : state) (f : frame ctw) => tx_prev_randao tx). reflexivity.
  - val (fun (b : state) (f : frame ctw) => tx_gas_price tx). reflexivity.
  - val (fun (b : state) (f : frame ctw) => tx_timestamp tx). intros. apply u64_small. lia.
  - apply (since_value_ok _ _ _ (fun b f => tx_base_fee tx) London); [reflexivity|discriminate|lia|reflexivity|reflexivity].
  - constructor; [|constructor]. eapply too_early; [reflexivity|]. cbn. lia.
  - eapply since_ok; [reflexivity|discriminate|num|reflexivity|reflexivity|reflexivity|num|intros b rv _ h; cbn [i_conditions] in h; rewrite Forall_cons_iff in h; destruct h as [h _]; apply holds_rev in h; cbn; split; [lia|discriminate]|opened].
    destruct st as [|n st]; [cbn in h1; lia|]. rewrite !Forall_cons_iff in hw. destruct hw as [hw _]. unfold is_word in hw.
    rewrite !Forall_cons_iff in hc. destruct hc as (_ & hc & _). unfold CtRuleFacts.holds in hc. cbn [check] in hc. apply on_param in hc; [|lia]. destruct hc as (v & e1 & e2). rewrite (co_stack _ _ _ co) in e1. injection e1 as <-.
    unfold isUint64 in e2. unfold i_blobhash. frames. states. cbn [h_tx_context go_host].
    rewrite u64_small by lia. rewrite (znth_some _ _ 0) by lia. assert (eb : n <? zlen (tx_blob_hashes tx) = true) by lia. rewrite eb. states. apply agrees_next. exact hrel.
  - eapply since_ok; [reflexivity|discriminate|num|reflexivity|reflexivity|reflexivity|num|intros b rv _ h; cbn [i_conditions] in h; rewrite Forall_cons_iff in h; destruct h as [h _]; apply holds_rev in h; cbn; split; [lia|discriminate]|opened].
    destruct st as [|n st]; [cbn in h1; lia|]. rewrite !Forall_cons_iff in hw. destruct hw as [hw _]. unfold is_word in hw.
    rewrite !Forall_cons_iff in hc. destruct hc as (_ & hc & _). unfold CtRuleFacts.holds in hc. cbn [check] in hc. apply on_param in hc; [|lia]. destruct hc as (v & e1 & e2). rewrite (co_stack _ _ _ co) in e1. injection e1 as <-.
    unfold isUint64 in e2. unfold i_blobhash. frames. states. cbn [h_tx_context go_host].
    assert (eb : n <? zlen (tx_blob_hashes tx) = false) by lia. rewrite eb. states. apply agrees_next. exact hrel.
  - constructor; [|constructor]. eapply too_early; [reflexivity|]. cbn. lia.
  - apply (since_value_ok _ _ _ (fun b f => tx_blob_base_fee tx) Cancun); [reflexivity|discriminate|lia|reflexivity|reflexivity].
  - constructor; [|constructor]. eapply too_early; [reflexivity|]. cbn. lia.
  - val (fun (b : state) (f : frame ctw) => tx_chain_id tx). reflexivity.
  - val (fun (b : state) (f : frame ctw) => zlen (ct_code b)). intros b rv st co. unfold paid. states. apply u64_small. pose proof (ctk_size b (tst_ok b (co_test _ _ _ co))). pose proof (zlen_nonneg (ct_code b)). lia.
  - val (fun (b : state) (f : frame ctw) => zlen (ct_calldata b)). intros b rv st co. unfold paid. states. apply u64_small. pose proof (ctk_data_len b (tst_ok b (co_test _ _ _ co))). pose proof (zlen_nonneg (ct_calldata b)). lia.
  - val (fun (b : state) (f : frame ctw) => GetBalance (f_world f) (ct_self b)). intros b rv st co. unfold paid. states. reflexivity.
  - val (fun (b : state) (f : frame ctw) => zlen (f_ret f)). intros b rv st co. unfold paid, Paid. cbn [f_ret]. states. apply u64_small. pose proof (ctk_last_len b (tst_ok b (co_test _ _ _ co))). pose proof (zlen_nonneg (ct_last b)). lia.
Qed.
Lemma machine_ok : Forall rule_ok machineRules.
Proof.
  unfold machineRules. each.
  - val (fun (b : state) (f : frame ctw) => f_pc f). intros b rv st co. unfold paid. states. pose proof (co_pc _ _ _ co). rewrite u64_small by lia. unfold Paid. cbn [f_pc]. lia.
  - val (fun (b : state) (f : frame ctw) => f_active f). intros b rv st co. unfold paid, Paid. cbn [f_active]. states. apply u64_small. pose proof (mem_small _ _ _ _ (co_rel _ _ _ co) (co_gas _ _ _ co) (co_price _ _ _ co)). lia.
  - eapply plain_ok; [reflexivity|discriminate|num|reflexivity|reflexivity|reflexivity|num|opened]. frames. states. rewrite u64_small by lia. states. apply agrees_next. exact hrel.
  - entry_ok. frames. apply agrees_next. exact hrel.
Qed.
End Sound.
