(** Logs and profiles of executions on the VM object. *)
From Verif Require Import Base Host Memory Opcodes Interp SpecEvm SpecTrace SpecVm MemFacts JumpFacts SimBase SpecFacts Sim
  Lru LruFacts LruConcFacts Sha3 MemoFacts Profiler ProfilerFacts Vm VmFacts Trace SpecStep Client ClientFacts SpecObs.
From Coq Require Import Lia ZArith List Bool.

(** ** What the observers change *)
Record watch : Type := mkWatch { x_log : list log_line; x_prof : profiler; x_profx : profiler; x_time : nat }.
Definition view (v : vm) : watch := mkWatch (v_log v) (v_prof v) (v_profx v) (v_time v).
Definition flags (v : vm) : bool * bool * bool := (v_logging v, v_profiling v, v_profext v).
Definition x_get (mode : pmode) (x : watch) : profiler := match mode with PFull => x_prof x | PExternal => x_profx x end.
Definition x_set (mode : pmode) (p : profiler) (x : watch) : watch :=
  mkWatch (x_log x) (match mode with PFull => p | PExternal => x_prof x end) (match mode with PFull => x_profx x | PExternal => p end) (S (x_time x)).

Inductive kind : Set := KLog | KProf (mode : pmode) | KNone.
Definition kind_of (F : bool * bool * bool) : kind :=
  let '(l, p, x) := F in if l then KLog else if p then KProf PFull else if x then KProf PExternal else KNone.

Section Kinds.
Variable tick : nat -> Z.
Definition prof_does (mode : pmode) (h : Z -> profiler -> res profiler) (x x' : watch) : Prop :=
  exists p, h (tick (x_time x)) (x_get mode x) = Ok p /\ x' = x_set mode p x.
Definition k_prun (K : kind) (m : message) (x x' : watch) : Prop :=
  match K with KProf mode => prof_does mode (prof_pre_run (msg_depth m)) x x' | _ => x' = x end.
Definition k_qrun (K : kind) (m : message) (x x' : watch) : Prop :=
  match K with KProf mode => prof_does mode (prof_post_run (msg_depth m)) x x' | _ => x' = x end.
Definition line_of (e : event) : log_line := mkLine (op_of (ev_byte e)) (ev_gas e) (ev_top e).
Definition k_pre (K : kind) (m : message) (e : event) (x x' : watch) : Prop :=
  match K with
  | KLog => x' = mkWatch (x_log x ++ [line_of e]) (x_prof x) (x_profx x) (x_time x)
  | KProf mode => prof_does mode (prof_pre mode (op_of (ev_byte e)) (msg_depth m)) x x'
  | KNone => x' = x
  end.
Definition k_post (K : kind) (m : message) (e : event) (x x' : watch) : Prop :=
  match K with KProf mode => prof_does mode (prof_post mode (op_of (ev_byte e)) (msg_depth m)) x x' | _ => x' = x end.
Definition k_effect (K : kind) : tree -> watch -> watch -> Prop := effect (k_prun K) (k_qrun K) (k_pre K) (k_post K).
End Kinds.

Section Exec.
Context {W : Type}.
Variable H : host W.
Variable keccak : list Z -> Z.
Variable tick : nat -> Z.
Variable bufs : nat -> list (option Z).
Variable handler : W -> message -> prog W.
Variable code_of : Z -> list Z.
Hypothesis Hhost : host_ok H.
Hypothesis Hkeccak : forall bs, is_word (keccak bs).
Hypothesis Hbufs : forall n, zlen (bufs n) = 1024.
Hypothesis Hhandler : handler_ok handler code_of.
Variable F : bool * bool * bool.

Notation K := (kind_of F).
Definition fok (v : vm) : Prop := vm_ok keccak code_of v /\ flags v = F.
Notation ok := fok.
Notation exec := (exec H keccak tick bufs false handler).
Notation eval := (eval H keccak handler).
Notation tree_of := (tree_of H keccak handler).
Notation k_effect := (k_effect tick).
Notation obs_tr m := (obs_tr fok view (k_prun tick K) (k_qrun tick K) (k_pre tick K) (k_post tick K) m).

Lemma view_prof mode p v : view (next_time (set_prof mode p v)) = x_set mode p (view v).
Proof. destruct v, mode; reflexivity. Qed.
Lemma flags_prof mode p v : flags (next_time (set_prof mode p v)) = flags v.
Proof. destruct v, mode; reflexivity. Qed.
Lemma get_view mode v : x_get mode (view v) = get_prof mode v.
Proof. destruct mode; reflexivity. Qed.

Lemma prof_hook mode (h : Z -> profiler -> res profiler) v : ok v ->
  (forall t p, zlen (pr_calls p) = kCallDataSize -> exists p', h t p = Ok p' /\ zlen (pr_calls p') = kCallDataSize) ->
  exists v', (do! p <- h (tick (v_time v)) (get_prof mode v); Ok (next_time (set_prof mode p v))) = Ok v' /\ ok v' /\
    prof_does tick mode h (view v) (view v').
Proof.
  intros [Hv Hf] Hh. destruct (Hh (tick (v_time v)) (get_prof mode v) (ok_get_prof keccak code_of mode v Hv)) as (p & E1 & L1). rewrite E1. cbn [rbind].
  eexists. split; [reflexivity|]. split.
  - split; [apply ok_set_prof; assumption|]. rewrite flags_prof. exact Hf.
  - exists p. rewrite get_view, view_prof. split; [exact E1|reflexivity].
Qed.

Lemma observer_tr v m : 0 <= msg_depth m <= 1024 -> flags v = F -> obs_tr m (observer_of tick v).
Proof.
  intros Hd HF. assert (EF : observer_of tick v = match K with KLog => log_observer | KProf mode => prof_observer tick mode | KNone => no_observer end).
  { rewrite <- HF. unfold observer_of, kind_of, flags. destruct (v_logging v), (v_profiling v), (v_profext v); reflexivity. }
  rewrite EF. clear EF HF v. unfold k_prun, k_qrun, k_pre, k_post. destruct K as [|mode|] eqn:EK.
  - split; cbn [log_observer ob_uses_context ob_pre_run ob_post_run ob_pre ob_post]; eauto.
    intros o c v e _ Eo Hrep [Hv Hf]. destruct (Hrep eq_refl) as (Eg & l & R & Et).
    assert (Eop : op_of (ev_byte e) = o) by (unfold op_of; rewrite Eo; reflexivity).
    unfold kStackSize.
    destruct (Z.eqb_spec (1024 - oc_top c) 0) as [h|h].
    + eexists. split; [reflexivity|]. split; [split; [apply ok_set_log; exact Hv|destruct v; exact Hf]|].
      destruct l as [|x l]; [|pose proof (rep_top _ _ _ R) as X; unfold zlen in X; cbn [length] in X; lia].
      unfold line_of. rewrite Eop, Et, <- Eg. cbn [nth_error]. destruct v; reflexivity.
    + destruct l as [|x l]. { pose proof (rep_top _ _ _ R) as X. unfold zlen in X. cbn in X. lia. }
      pose proof (rep_at _ _ _ R 0 x eq_refl) as X. rewrite Z.add_0_r in X. rewrite X.
      eexists. split; [reflexivity|]. split; [split; [apply ok_set_log; exact Hv|destruct v; exact Hf]|].
      unfold line_of. rewrite Eop, Et, <- Eg. cbn [nth_error]. destruct v; reflexivity.
  - split; cbn [prof_observer ob_uses_context ob_pre_run ob_post_run ob_pre ob_post].
    + intros v Hv. apply (prof_hook mode (prof_pre_run (msg_depth m))); [exact Hv|]. intros; apply pre_run_len; assumption.
    + intros v Hv. apply (prof_hook mode (prof_post_run (msg_depth m))); [exact Hv|]. intros; apply post_run_len; assumption.
    + intros o c v e Em Eo _ Hv. rewrite Em. unfold op_of. rewrite Eo. apply (prof_hook mode (prof_pre mode o (msg_depth m))); [exact Hv|].
      intros; apply pre_len; assumption.
    + intros o c v e Em Eo Hv. rewrite Em. unfold op_of. rewrite Eo. apply (prof_hook mode (prof_post mode o (msg_depth m))); [exact Hv|].
      intros; apply post_len; assumption.
  - split; cbn [no_observer ob_uses_context ob_pre_run ob_post_run ob_pre ob_post]; eauto.
Qed.

Lemma hash_tr v bs : ok v -> exists v', vm_hash keccak v bs = Ok (keccak bs, v') /\ ok v' /\ view v' = view v.
Proof.
  intros [Hv Hf]. unfold vm_hash. destruct (sha3_hash_ok keccak (v_hashes v) bs (vok_hashes _ _ _ Hv)) as (c & E1 & Hc).
  rewrite E1. cbn [rbind]. eexists. split; [reflexivity|]. split; [split; [apply ok_set_hashes; assumption|destruct v; exact Hf]|destruct v; reflexivity].
Qed.

Notation nested_effect m := (nested_effect (k_prun tick K) (k_qrun tick K) (k_pre tick K) (k_post tick K) m).

Theorem execute_trace callm call trees v w rev code m : ok v -> exec_ok code_of code m ->
  calls_ok call (msg_depth m) ->
  (forall w v m', ok v -> msg_ok m' -> 0 <= msg_gas m' -> msg_depth m' = msg_depth m + 1 ->
     exists v', callm w v m' = Ok (fst (call w m'), snd (call w m'), v') /\ ok v' /\ chain (nested_effect m) (trees w m') (view v) (view v')) ->
  exists r w' v', execute H keccak tick bufs false callm v w rev code m = Ok (r, w', v') /\ ok v' /\
    k_effect K (Tree m (tree_body H keccak call trees rev code m (S (Z.to_nat (msg_gas m))) (initial m w))) (view v) (view v').
Proof.
  intros [Hv Hf] [M1 M2 M3 M4 M5] Hc Hm. unfold execute.
  destruct (contract_info_ok keccak code_of code (msg_code_hash m) v Hv M4 M5) as (i & c & E1 & Ei & Hv1).
  rewrite E1. cbn [rbind]. set (v1 := set_infos c v) in *.
  assert (Hf1 : flags v1 = F) by (unfold v1; destruct v; exact Hf).
  assert (Ex1 : view v1 = view v) by (unfold v1; destruct v; reflexivity).
  assert (Ex2 : view (next_acq v1) = view v) by (unfold v1; destruct v; reflexivity).
  assert (Ok1 : ok (next_acq v1)). { split; [apply ok_next_acq; exact Hv1|]. unfold v1; destruct v; exact Hf. }
  destruct (env_of_info code i m rev (v_sha3 v1) M4 Ei) as (Ee & T1 & T2). rewrite Ee.
  destruct (interpret_trace (vm_sys H keccak false callm) ok call view (k_prun tick K) (k_qrun tick K) (k_pre tick K) (k_post tick K) trees
    m rev code (ci_targets i) (v_sha3 v1) (is_dest code)
    eq_refl Hhost Hc (fun w v m h => Hm w v m h) (fun v bs h _ => hash_tr v bs h) Hkeccak M1 M3 M4 T1 T2 (is_dest_spec code)
    (observer_of tick v1) (S (Z.to_nat (msg_gas m))) (S (Z.to_nat (msg_gas m))) (bufs (v_acq v1)) w (next_acq v1))
    as (r & w' & v2 & E2 & O2 & HX).
  - apply observer_tr; [|exact Hf1]. pose proof (mok_depth _ M1). lia.
  - apply Hbufs.
  - exact Ok1.
  - reflexivity.
  - lia.
  - lia.
  - change (interpret (vm_sys H keccak false callm) (make_env m rev (pad_code code) (ci_targets i) (v_sha3 v1))
      (observer_of tick v1) (S (Z.to_nat (msg_gas m))) (bufs (v_acq v1)) w (next_acq v1) = Ok (r, w', v2)) in E2.
    rewrite E2. cbn [rbind]. eexists _, _, _. split; [reflexivity|]. split; [exact O2|]. rewrite <- Ex2. exact HX.
Qed.

Lemma chain_app {A X} (R : A -> X -> X -> Prop) l1 l2 x y z : chain R l1 x y -> chain R l2 y z -> chain R (l1 ++ l2) x z.
Proof.
  revert x. induction l1 as [|a l1 IH]; intros x; cbn [chain app]; [intros ->; auto|]. intros (y1 & A1 & A2) B. exists y1. split; [exact A1|]. apply IH; assumption.
Qed.

Lemma play_trace n d m p : prog_ok code_of m p -> msg_depth m = d + 1 -> 0 <= d <= 1024 -> (1025 - (d + 1) <= Z.of_nat n) ->
  (forall w rev code m' v, msg_depth m' = d + 1 -> exec_ok code_of code m' -> ok v ->
     exists r w' v', exec n v w rev code m' = Ok (r, w', v') /\ ok v' /\ k_effect K (tree_of n w rev code m') (view v) (view v')) ->
  forall m0 v, msg_depth m0 = d -> ok v -> exists r w' v', run_prog (exec n) p v = Ok (r, w', v') /\ ok v' /\
    chain (nested_effect m0) (play_trees (eval n) (tree_of n) p) (view v) (view v').
Proof.
  intros HP Hd Hd2 Hn IH. induction HP as [r w Hr|w rev code m' k He Hdm Hg Hk IHk]; intros m0 v Hm0 Hv.
  - eexists _, _, _. split; [reflexivity|]. split; [exact Hv|reflexivity].
  - cbn [run_prog play_trees].
    destruct (IH w rev code m' v ltac:(lia) He Hv) as (r & w' & v1 & E1 & O1 & X1).
    destruct (exec_sim_vm H keccak tick bufs handler code_of Hhost Hkeccak Hbufs Hhandler n v w rev code m' (proj1 Hv) He ltac:(lia)) as (v1' & E1' & _ & HC).
    rewrite E1 in E1'. injection E1' as Er Ew _. rewrite E1. cbn [rbind].
    destruct (eval n w rev code m') as [r0 w0] eqn:Eev. cbn [fst snd] in *. subst r0 w0.
    destruct (IHk r w' (HC Hg) m0 v1 Hm0 O1) as (r2 & w2 & v2 & E2 & O2 & X2).
    exists r2, w2, v2. split; [exact E2|]. split; [exact O2|]. cbn [chain]. exists (view v1). split; [|exact X2].
    assert (Et : tree_depth (tree_of n w rev code m') = msg_depth m') by (destruct n; reflexivity).
    split; [rewrite Et; lia|]. split; [rewrite Et; exact (eok_depth _ _ _ He)|exact X1].
Qed.

Theorem exec_trace : forall n v w rev code m, ok v -> exec_ok code_of code m -> (1025 - msg_depth m <= Z.of_nat n) ->
  exists r w' v', exec n v w rev code m = Ok (r, w', v') /\ ok v' /\ k_effect K (tree_of n w rev code m) (view v) (view v').
Proof.
  induction n; intros v w rev code m Hv He Hn; [pose proof (eok_depth _ _ _ He); lia|].
  cbn [Vm.exec SpecVm.tree_of].
  pose proof (mok_depth _ (eok_msg _ _ _ He)). pose proof (eok_depth _ _ _ He).
  destruct (vm_call_sim H keccak tick bufs handler code_of Hhost Hkeccak Hbufs Hhandler n (msg_depth m) ltac:(lia) ltac:(lia)) as [A B].
  apply execute_trace; [exact Hv|exact He|exact A|].
  intros w1 v1 m' Hv1 M1 M2 M3. destruct (B w1 v1 m' (proj1 Hv1) M1 M2 M3) as (v2 & E2 & _).
  assert (HPO : prog_ok code_of m' (handler w1 m')) by (apply Hhandler; [exact M1|exact M2|lia]).
  destruct (play_trace n (msg_depth m) m' (handler w1 m') HPO ltac:(lia) ltac:(lia) ltac:(lia)) with (m0 := m) (v := v1) as (r3 & w3 & v3 & E3 & O3 & X3); [| reflexivity |exact Hv1|].
  { intros. apply IHn; [assumption|assumption|lia]. }
  unfold vm_call in E2. rewrite E2 in E3. injection E3 as <- <- <-. exists v2. auto.
Qed.
End Exec.
