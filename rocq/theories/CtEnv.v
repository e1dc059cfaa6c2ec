(** The run context of the conformance tests, and steps that do not depend on all of a run context. *)
From Verif Require Import Base Host SpecEvm SpecVm MemFacts JumpFacts RunInv GoAdapter LfvmCode Lfvm LfvmSim LfvmConv LfvmStep SpecLfvm Ct SpecCt CtFacts.
From Coq Require Import Lia ZArith List Bool.
Import ListNotations.
Open Scope Z_scope.

Definition plain (st : storage_status) : storage_status := match st with S_DELETED_RESTORED | S_MODIFIED_RESTORED => S_ASSIGNED | st => st end.
(** storing never restores a value *)
Definition rc_plain {W} (rc : run_context W) : run_context W := mkRC W (rc_nonce rc) (rc_balance rc) (rc_code_size rc) (rc_code_hash rc) (rc_code rc) (rc_storage rc) (rc_transient rc) (rc_block_hash rc)
  (fun w a k v => let '(st, w') := rc_set_storage rc w a k v in (plain st, w')) (rc_set_transient rc) (rc_access_account rc) (rc_access_storage rc) (rc_selfdestruct rc) (rc_emit_log rc).
(** all slots have been accessed *)
Definition rc_warm {W} (rc : run_context W) : run_context W := mkRC W (rc_nonce rc) (rc_balance rc) (rc_code_size rc) (rc_code_hash rc) (rc_code rc) (rc_storage rc) (rc_transient rc) (rc_block_hash rc)
  (rc_set_storage rc) (rc_set_transient rc) (rc_access_account rc) (fun w a k => (WARM, snd (rc_access_storage rc w a k))) (rc_selfdestruct rc) (rc_emit_log rc).

Section Env.
Context {W : Type}.
Variable rc : run_context W.
Variable tx : tx_context.
Variable Call : W -> go_kind -> call_params -> option call_result * W.
Variable keccak : list Z -> Z.
Variable hash : list Z -> Z.

Record env_most (depth : Z) : Prop := mkMost {
  em_host : host_ok (go_host rc tx);
  em_tx : tx_ok tx;
  em_keccak : forall d, is_word (keccak d);
  em_codes : forall w a, zlen (rc_code rc w a) < 2 ^ 63;
  em_calls : calls_ok (answers Call) depth;
  em_access : forall w a st w1, rc_access_account rc w a = (st, w1) -> forall b, is_empty rc w1 b = is_empty rc w b /\ rc_balance rc w1 b = rc_balance rc w b;
}.
Lemma plain_env d : env_most d -> env_ok (rc_plain rc) tx Call keccak d.
Proof.
  intros [[h1 h2 h3 h4 h5 h6 h7 h8] e2 e3 e4 e5 e6]. split; try assumption; [split; assumption|].
  intros w a k v w1 st w2 _ h. cbn [rc_set_storage rc_plain] in h. destruct (rc_set_storage rc w1 a k v) as [st0 w0]. injection h as <- _. destruct st0; cbn; split; discriminate.
Qed.
Lemma warm_env d : env_most d -> env_ok (rc_warm rc) tx Call keccak d.
Proof.
  intros [[h1 h2 h3 h4 h5 h6 h7 h8] e2 e3 e4 e5 e6]. split; try assumption; [split; assumption|].
  intros w a k v w1 st w2 h. cbn [rc_access_storage rc_warm] in h. discriminate.
Qed.

(** ** The EVM *)
Section Spec.
Variable m : message.
Variable rv : revision.
Variable code : list Z.
Variable vd : Z -> bool.
Notation Exec rc := (SpecEvm.exec (go_host rc tx) (answers Call) keccak m rv code vd).
Notation Step rc := (SpecEvm.step (go_host rc tx) (answers Call) keccak m rv code vd).
Lemma exec_plain b f : b <> 0x55 -> Exec (rc_plain rc) b f = Exec rc b f.
Proof.
  intros D. destruct b as [|p|p]; try reflexivity. do 8 (try (destruct p as [p|p|]; try reflexivity)); exfalso; apply D; reflexivity.
Qed.
Lemma step_alike rc' f : (forall i f1, instruction (code_at code (f_pc f)) = Some i -> in_stateful i && SpecEvm.static m = false -> f1 = with_gas (f_gas f - in_fee i) f ->
    Exec rc' (code_at code (f_pc f)) f1 = Exec rc (code_at code (f_pc f)) f1) -> Step rc' f = Step rc f.
Proof.
  intros h. unfold SpecEvm.step. destruct (instruction _) as [i|]; [|reflexivity]. destruct (negb _); [reflexivity|]. destruct (_ && _) eqn:es; [reflexivity|]. destruct (_ <? in_args i); [reflexivity|]. destruct (1024 <? _); [reflexivity|].
  unfold charge. destruct (f_gas f <? in_fee i); [reflexivity|]. apply (h i); auto.
Qed.
Lemma sstore_short rc' f : zlen (f_stack f) < 2 \/ f_gas f <= 2300 -> Exec rc' 0x55 f = Exec rc 0x55 f.
Proof.
  intros h. cbn [SpecEvm.exec]. unfold i_sstore. destruct (f_stack f) as [|k [|v st]]; try reflexivity. destruct h as [h|h]; [exfalso; rewrite !zlen_cons in h; pose proof (zlen_nonneg st); lia|].
  rewrite (proj2 (Z.leb_le _ _) h). reflexivity.
Qed.
Lemma sstore_plain f k v st : f_stack f = k :: v :: st ->
  (let w1 := if rev_ge rv Berlin then snd (rc_access_storage rc (f_world f) (self m) k) else f_world f in plain (fst (rc_set_storage rc w1 (self m) k v)) = fst (rc_set_storage rc w1 (self m) k v)) ->
  Exec (rc_plain rc) 0x55 f = Exec rc 0x55 f.
Proof.
  intros e h. cbn [SpecEvm.exec]. unfold i_sstore. rewrite e. destruct (f_gas f <=? 2300); [reflexivity|]. destruct f as [pc g stk mm act rt rf w]. cbn [f_stack f_world with_world] in *. destruct (rev_ge rv Berlin); cbn [go_host h_access_storage h_set_storage rc_plain rc_access_storage rc_set_storage] in *.
  - destruct (rc_access_storage rc w (self m) k) as [ac w1]. cbn [snd f_world with_world] in *. destruct (rc_set_storage rc w1 (self m) k v) as [st0 w2]. cbn [fst] in h. rewrite h. reflexivity.
  - cbn [f_world]. destruct (rc_set_storage rc w (self m) k v) as [st0 w2]. cbn [fst] in h. rewrite h. reflexivity.
Qed.
Lemma sstore_warm f k v st : f_stack f = k :: v :: st ->
  (rev_ge rv Berlin = true -> fst (rc_access_storage rc (f_world f) (self m) k) = WARM) -> Exec (rc_warm rc) 0x55 f = Exec rc 0x55 f.
Proof.
  intros e h. cbn [SpecEvm.exec]. unfold i_sstore. rewrite e. destruct (f_gas f <=? 2300); [reflexivity|]. destruct (rev_ge rv Berlin); [|reflexivity].
  cbn [go_host h_access_storage h_set_storage rc_warm rc_access_storage rc_set_storage]. destruct (rc_access_storage rc (f_world f) (self m) k) as [ac w1]. specialize (h eq_refl). cbn [fst snd] in *. rewrite h. reflexivity.
Qed.
Lemma exec_warm b f : b <> 0x54 -> b <> 0x55 -> Exec (rc_warm rc) b f = Exec rc b f.
Proof.
  intros D1 D2. destruct b as [|p|p]; try reflexivity. do 8 (try (destruct p as [p|p|]; try reflexivity)); exfalso; try (apply D1; reflexivity); apply D2; reflexivity.
Qed.
End Spec.

(** ** LFVM *)
Section Go.
Variable p : parameters.
Variable lc : lcode.
Notation Op rc := (execute_op rc tx Call keccak p lc).
Lemma op_plain op c : op <> 0x55 -> Op (rc_plain rc) op c = Op rc op c.
Proof.
  intros D. destruct op as [|q|q]; try reflexivity. do 9 (try (destruct q as [q|q|]; try reflexivity)); exfalso; apply D; reflexivity.
Qed.
Lemma op_sstore_plain c k v st : c_stack c = k :: v :: st ->
  (let w1 := if isAtLeast p 1 then snd (rc_access_storage rc (c_world c) (p_recipient p) k) else c_world c in plain (fst (rc_set_storage rc w1 (p_recipient p) k v)) = fst (rc_set_storage rc w1 (p_recipient p) k v)) ->
  Op (rc_plain rc) 0x55 c = Op rc 0x55 c.
Proof.
  intros e h. cbn [execute_op]. unfold opSstore. destruct (p_static p); [reflexivity|]. destruct (c_gas c <=? 2300); [reflexivity|]. destruct c as [pc g rf stk store cost rt w]. cbn [c_stack c_world] in *. subst stk.
  unfold spop. cbn [c_stack c_world set_stack]. destruct (isAtLeast p 1); cbn [rc_plain rc_access_storage rc_set_storage].
  - destruct (rc_access_storage rc w (p_recipient p) k) as [ac w1]. cbn [snd] in h. destruct (rc_set_storage rc w1 (p_recipient p) k v) as [st0 w2]. cbn [fst] in h. rewrite h. reflexivity.
  - destruct (rc_set_storage rc w (p_recipient p) k v) as [st0 w2]. cbn [fst] in h. rewrite h. reflexivity.
Qed.
Lemma op_sstore_warm c k v st : c_stack c = k :: v :: st ->
  (isAtLeast p 1 = true -> fst (rc_access_storage rc (c_world c) (p_recipient p) k) = WARM) -> Op (rc_warm rc) 0x55 c = Op rc 0x55 c.
Proof.
  intros e h. cbn [execute_op]. unfold opSstore. destruct (p_static p); [reflexivity|]. destruct (c_gas c <=? 2300); [reflexivity|]. destruct c as [pc g rf stk store cost rt w]. cbn [c_stack c_world] in *. subst stk.
  unfold spop. cbn [c_stack c_world set_stack]. destruct (isAtLeast p 1); cbn [rc_warm rc_access_storage rc_set_storage]; [|reflexivity].
  destruct (rc_access_storage rc w (p_recipient p) k) as [ac w1]. specialize (h eq_refl). cbn [fst snd] in *. rewrite h. reflexivity.
Qed.
Lemma op_sstore_short rc' (c : ctx W) : p_static p = true \/ c_gas c <= 2300 -> Op rc' 0x55 c = Op rc 0x55 c.
Proof.
  intros h. cbn [execute_op]. unfold opSstore. destruct (p_static p); [reflexivity|]. destruct h as [h|h]; [discriminate|]. rewrite (proj2 (Z.leb_le _ _) h). reflexivity.
Qed.
Lemma lstep_alike rc' (c : ctx W) : (forall op a c1, znth lc (c_pc c) = Some (op, a) -> c_stack c1 = c_stack c -> c_world c1 = c_world c -> c_gas c1 <= c_gas c -> checkStackLimits (zlen (c_stack c)) op = true -> Op rc' op c1 = Op rc op c1) ->
  lstep rc' tx Call keccak p lc c = lstep rc tx Call keccak p lc c.
Proof.
  intros h. unfold lstep. destruct (_ <=? _); [reflexivity|]. destruct (znth lc (c_pc c)) as [[op a]|] eqn:e; [|reflexivity]. destruct (checkStackLimits _ _) eqn:el; cbn [negb]; [|reflexivity].
  unfold useGas. destruct (_ || _) eqn:eg; [reflexivity|]. cbv beta. rewrite (h op a _ eq_refl); [reflexivity|destruct c; reflexivity|destruct c; reflexivity| |assumption].
  rewrite !orb_false_iff, !Z.ltb_ge in eg. destruct c. cbn in *. lia.
Qed.
End Go.

(** ** StepN *)
Definition alike (rc' : run_context W) (s : ct_state W) (rv : revision) : Prop :=
  LfvmStepN rc' tx Call keccak hash s 1 = LfvmStepN rc tx Call keccak hash s 1 /\
  let m := message_of (ToVmParameters hash s) in
  SpecEvm.run_for (go_host rc' tx) (answers Call) keccak m rv (ct_code s) (is_dest (ct_code s)) 1 (frame_of s) =
  SpecEvm.run_for (go_host rc tx) (answers Call) keccak m rv (ct_code s) (is_dest (ct_code s)) 1 (frame_of s).
Lemma stepN_alike rc' s : (forall lc m q c, convert false (ct_code s) = Ok lc -> genPcMap (ct_code s) = Ok m -> znth (evmToLfvm m) (ct_pc s) = Some q -> c_pc c = q -> c_stack c = rev (ct_stack s) -> c_world c = ct_world s -> c_gas c = ct_gas s ->
    lstep rc' tx Call keccak (ToVmParameters hash s) lc c = lstep rc tx Call keccak (ToVmParameters hash s) lc c) ->
  LfvmStepN rc' tx Call keccak hash s 1 = LfvmStepN rc tx Call keccak hash s 1.
Proof.
  intros h. unfold LfvmStepN. destruct (_ <? _); [reflexivity|]. destruct (ct_stat s); try reflexivity. change (p_code (ToVmParameters hash s)) with (ct_code s).
  destruct (convert false (ct_code s)) as [lc| |] eqn:e1; cbn [rbind]; try reflexivity. destruct (genPcMap (ct_code s)) as [m| |] eqn:e2; cbn [rbind]; try reflexivity.
  destruct (znth (evmToLfvm m) (ct_pc s)) as [q|] eqn:e3; cbn [rbind]; [|reflexivity]. destruct (convertCtStack (ct_stack s)) as [stk| |] eqn:e4; cbn [rbind]; try reflexivity.
  assert (es : stk = rev (ct_stack s)). { unfold convertCtStack in e4. destruct (_ <? _); [discriminate|]. injection e4 as <-. rewrite push_rev, app_nil_r. reflexivity. }
  destruct (convertCtMemory (ct_mem s)) as [store cost]. change (Z.to_nat 1) with 1%nat. cbn [ct_rounds]. rewrite (h lc m q _ eq_refl eq_refl e3); try reflexivity. exact es.
Qed.
End Env.
