(** The run context of the conformance tests satisfies what the targets ask for, as far as a single step can tell. *)
From Verif Require Import Base Host SpecEvm SpecVm MemFacts JumpFacts RunInv GoAdapter GoStorage LfvmCode Lfvm LfvmSim LfvmConv LfvmStep SpecLfvm Ct SpecCt CtFacts CtEnv CtRules SpecRules CtRuleFacts.
From Coq Require Import Lia ZArith List Bool.
Import ListNotations.
Open Scope Z_scope.

Lemma word_ok v : is_word (word v).
Proof. unfold word, is_word. apply Z.mod_pos_bound. reflexivity. Qed.
Lemma slice_ok d : Forall is_byte (byte_slice d) /\ zlen (byte_slice d) < 2 ^ 63.
Proof.
  unfold byte_slice. destruct (Z.ltb_spec (zlen d) (2 ^ 63)); [|split; [constructor|reflexivity]]. split.
  - apply Forall_forall. intros x hx. apply in_map_iff in hx. destruct hx as (y & <- & _). unfold is_byte. pose proof (Z.mod_pos_bound y 256). lia.
  - unfold zlen in *. rewrite map_length. assumption.
Qed.
Section Pick.
Variable tx : tx_context.
Variable Call : ctw -> go_kind -> call_params -> option call_result * ctw.
Variable keccak hash : list Z -> Z.
Notation rc := (ct_rc tx).
Hypothesis Htx : tx_ok tx.
Hypothesis Hk : forall d, is_word (keccak d).
Hypothesis Hc : calls_ok (answers Call) 0.
Lemma ct_most : env_most rc tx Call keccak 0.
Proof.
  split; try assumption.
  - split; cbn [go_host h_get_storage h_get_transient h_get_balance h_get_code_size h_get_code_hash h_copy_code h_tx_context h_block_hash ct_rc rc_storage rc_transient rc_balance rc_code_size rc_code_hash rc_code rc_block_hash].
    + intros. apply word_ok.
    + intros. apply word_ok.
    + intros. apply word_ok.
    + intros. pose proof (proj2 (slice_ok (snd (entry (w_accounts w) a (0, []))))) as X. unfold GetCode. pose proof (zlen_nonneg (byte_slice (snd (entry (w_accounts w) a (0, []))))). lia.
    + intros. unfold GetCodeHash, is_word. destruct (is_empty _ _ _); lia.
    + intros w a o n hn. pose proof (slice_ok (snd (entry (w_accounts w) a (0, [])))) as [X _]. fold (GetCode w a) in X. split.
      * unfold zlen. rewrite firstn_length. lia.
      * rewrite Forall_forall in *. intros x hx. apply X. rewrite <- (firstn_skipn (Z.to_nat o) (GetCode w a)). apply in_or_app. right. rewrite <- (firstn_skipn (Z.to_nat n) (skipn _ _)). apply in_or_app. left. exact hx.
    + intros. assumption.
    + intros. cbv zeta. destruct (_ || _); [unfold is_word; lia|apply word_ok].
  - intros. apply slice_ok.
  - intros w a st w1 h b. cbn [ct_rc rc_access_account] in h. injection h as _ <-. split; reflexivity.
Qed.
Section State.
Variable s : state.
Variable rv : revision.
Hypothesis Hok : ct_ok s.
Hypothesis Hat : at_instruction s.
Hypothesis Hrev : In (ct_revision s, rv) revisions.
Notation code := (ct_code s).
Notation p := (ToVmParameters hash s).
Notation op := (code_at code (ct_pc s)).
(** LFVM is at the instruction of the state, or at the end *)
Lemma same_op lc m q : convert false code = Ok lc -> genPcMap code = Ok m -> znth (evmToLfvm m) (ct_pc s) = Some q ->
  forall o a, znth lc q = Some (o, a) -> o = op.
Proof.
  intros hc hm hq o a ho. pose proof (ctk_size s Hok) as hsz.
  destruct (convert_total false code (ctk_code s Hok) ltac:(lia)) as (lc' & e & hl). rewrite hc in e. injection e as <-.
  destruct (to_lfvm hash s Hok lc hl m hm hc Hat) as (q' & e & h1 & h2). rewrite hq in e. injection e as <-.
  destruct Hat as [h|[h3 h4]].
  { rewrite (h2 h) in ho. exfalso. unfold znth in ho. destruct (_ <? _); [discriminate|]. assert (hx : nth_error lc (Z.to_nat (zlen lc)) <> None) by congruence. apply nth_error_Some in hx. unfold zlen in hx. lia. }
  destruct (h1 h4) as [hd|[hl2 hb]].
  - destruct hd as (-> & _ & hb & hn & _). change (p_code p) with code in *. rewrite hb. rewrite hn in ho. congruence.
  - change (p_code p) with code in *. specialize (hb h4). destruct (located_plain false code lc (ct_pc s) q hl2 h4 ltac:(lia) hb) as (k1 & k2 & _); [reflexivity|].
    pose proof (proj1 (entries_zlen code (ct_pc s))) as hez.
    assert (hh : exists a t, entries code (ct_pc s) op = (op, a) :: t).
    { unfold entries in *. destruct (Z.eqb_spec op 0x58) as [e|]; [rewrite e; eauto|]. destruct (_ && _); [|eauto]. destruct (pairs _) as [|a0 t]; [cbn in hez; lia|eauto]. }
    destruct hh as (a1 & t & eh). rewrite eh in k1. destruct (slice_znth _ _ _ _ _ (lo_q _ _ _ _ _ hl2) k1) as [k _]. rewrite k in ho. congruence.
Qed.
Lemma static_is : SpecEvm.static (message_of p) = ct_readonly s.
Proof. unfold static. cbn. destruct (ct_readonly s); reflexivity. Qed.
Lemma from_parts rc' :
  (forall c1 a, c_stack c1 = rev (ct_stack s) -> c_world c1 = ct_world s -> c_gas c1 <= ct_gas s -> checkStackLimits (zlen (ct_stack s)) op = true ->
     execute_op rc' tx Call keccak p a op c1 = execute_op rc tx Call keccak p a op c1) ->
  (forall i f1, SpecEvm.instruction op = Some i -> in_stateful i && ct_readonly s = false -> f1 = with_gas (ct_gas s - in_fee i) (frame_of s) ->
    SpecEvm.exec (go_host rc' tx) (answers Call) keccak (message_of p) rv code (is_dest code) op f1 = SpecEvm.exec (go_host rc tx) (answers Call) keccak (message_of p) rv code (is_dest code) op f1) ->
  alike rc tx Call keccak hash rc' s rv.
Proof.
  intros h1 h2. split.
  - apply stepN_alike. intros lc m q c e1 e2 e3 e4 e5 e6 e7. apply lstep_alike. intros o a c1 k1 k2 k3 k4 k5. rewrite e4 in k1. pose proof (same_op lc m q e1 e2 e3 o a k1) as ->.
    rewrite e5 in k2, k5. rewrite e6 in k3. rewrite e7 in k4. apply h1; [exact k2|exact k3|exact k4|]. unfold zlen in k5. rewrite rev_length in k5. exact k5.
  - cbv zeta. cbn [run_for]. rewrite (step_alike rc tx Call keccak (message_of p) rv code (is_dest code) rc' (frame_of s)); [reflexivity|].
    intros i f1 e1 e2 e3. rewrite static_is in e2. apply (h2 i); assumption.
Qed.
Lemma at_berlin : isAtLeast p 1 = (1 <=? ct_revision s) /\ rev_ge rv Berlin = (1 <=? ct_revision s).
Proof.
  split; [reflexivity|]. revert Hrev. unfold revisions. cbn [In]. intros hr. destruct hr as [hr|[hr|[hr|[hr|[hr|[hr|[]]]]]]]; injection hr as e1 e2; subst rv; rewrite <- e1; reflexivity.
Qed.
Lemma pick : ~ gap s op -> exists rc', env_ok rc' tx Call keccak 0 /\ alike rc tx Call keccak hash rc' s rv.
Proof.
  intros hg. pose proof (plain_env rc tx Call keccak 0 ct_most) as hp. pose proof (warm_env rc tx Call keccak 0 ct_most) as hw.
  destruct (Z.eq_dec op 0x55) as [e|ne].
  2:{ exists (rc_plain rc). split; [exact hp|]. apply from_parts; intros; [apply op_plain|apply exec_plain]; exact ne. }
  assert (short : ct_readonly s = true \/ ct_gas s <= 2300 \/ zlen (ct_stack s) < 2 -> alike rc tx Call keccak hash (rc_plain rc) s rv).
  { intros h. apply from_parts; rewrite e.
    - intros c1 a h1 h2 h3 h4. apply op_sstore_short. destruct h as [h|[h|h]]; [left; exact h|right; lia|]. exfalso. change (checkStackLimits (zlen (ct_stack s)) 0x55) with (negb (zlen (ct_stack s) <? 2) && negb (1024 <? zlen (ct_stack s))) in h4. lia.
    - intros i f1 h1 h2 ->. injection h1 as <-. cbn [in_stateful in_fee andb] in *. apply sstore_short. destruct h as [h|[h|h]]; [congruence|right; cbn; lia|left]. cbn [f_stack with_gas frame_of]. unfold zlen in *. rewrite rev_length. exact h. }
  destruct (ct_readonly s) eqn:er; [exists (rc_plain rc); split; [exact hp|apply short; tauto]|].
  destruct (Z_le_gt_dec (ct_gas s) 2300) as [hgas|hgas]; [exists (rc_plain rc); split; [exact hp|apply short; tauto]|].
  destruct (Z_lt_ge_dec (zlen (ct_stack s)) 2) as [hz|hz]; [exists (rc_plain rc); split; [exact hp|apply short; tauto]|].
  destruct (rev (ct_stack s)) as [|k [|v st]] eqn:es; [exfalso; unfold zlen in hz; rewrite <- rev_length, es in hz; cbn in hz; lia|exfalso; unfold zlen in hz; rewrite <- rev_length, es in hz; cbn in hz; lia|].
  set (st0 := GetStorageStatus (GetOriginal (ct_world s) k) (GetCurrent (ct_world s) k) v).
  assert (hx : plain st0 = st0 \/ st0 = S_DELETED_RESTORED \/ st0 = S_MODIFIED_RESTORED) by (destruct st0; cbn; tauto).
  destruct at_berlin as [hb1 hb2]. destruct hx as [hx|hx].
  - exists (rc_plain rc). split; [exact hp|]. apply from_parts; rewrite e.
    + intros c1 a h1 h2 h3 h4. apply (op_sstore_plain rc tx Call keccak p a c1 k v st); [congruence|]. cbv zeta. rewrite h2. destruct (isAtLeast p 1); exact hx.
    + intros i f1 h1 h2 ->. apply (sstore_plain rc tx Call keccak (message_of p) rv code (is_dest code) _ k v st); [exact es|]. cbv zeta. destruct (rev_ge rv Berlin); exact hx.
  - assert (hwm : 1 <= ct_revision s -> In k (w_warm (ct_world s))).
    { intros h. destruct (in_dec Z.eq_dec k (w_warm (ct_world s))) as [hi|hi]; [exact hi|]. exfalso. apply hg. rewrite e. apply (gap_sstore s k v st); [exact es|exact er|lia| |tauto].
      fold st0. destruct hx as [-> | ->]; cbn; intuition discriminate. }
    assert (hwm2 : (1 <=? ct_revision s) = true -> IsWarm (ct_world s) k = true).
    { intros h. apply existsb_exists. exists k. split; [apply hwm; lia|lia]. }
    exists (rc_warm rc). split; [exact hw|]. apply from_parts; rewrite e.
    + intros c1 a h1 h2 h3 h4. apply (op_sstore_warm rc tx Call keccak p a c1 k v st); [congruence|]. rewrite hb1, h2. intros h. cbn [ct_rc rc_access_storage fst]. rewrite (hwm2 h). reflexivity.
    + intros i f1 h1 h2 ->. apply (sstore_warm rc tx Call keccak (message_of p) rv code (is_dest code) _ k v st); [exact es|]. rewrite hb2. intros h. cbn [ct_rc rc_access_storage fst f_world with_gas frame_of]. rewrite (hwm2 h). reflexivity.
Qed.
End State.
End Pick.
