(** The VM object: Execute with re-entering hosts computes what the reference computes, whatever is in
    the caches and stack buffers and whichever observer is active. *)
From Verif Require Import Base Host Memory Opcodes Interp SpecEvm SpecTrace SpecVm MemFacts JumpFacts SimBase SpecFacts Sim
  Lru LruFacts LruConcFacts Sha3 MemoFacts Profiler ProfilerFacts Vm.
From Coq Require Import Lia ZArith List Bool.

(** ** Jump destinations *)
Lemma walk_sound fuel : forall code p d, instr_start code p -> d < zlen code -> walk fuel code p d = true -> instr_start code d.
Proof.
  induction fuel; intros code p d Hp Hd E; [discriminate|]. cbn [walk] in E.
  destruct (Z.eqb_spec p d) as [->|]; [exact Hp|]. destruct (Z.ltb_spec p d); [|discriminate].
  eapply IHfuel; [|exact Hd|exact E]. constructor; [exact Hp|lia].
Qed.
Lemma walk_complete fuel : forall code p d, instr_start code p -> instr_start code d -> p <= d -> d - p < Z.of_nat fuel ->
  walk fuel code p d = true.
Proof.
  induction fuel; intros code p d Hp Hd Hle Hf; [lia|]. cbn [walk].
  destruct (Z.eqb_spec p d) as [->|]; [reflexivity|]. destruct (Z.ltb_spec p d); [|lia].
  pose proof (start_gap code d Hd p Hp ltac:(lia)). pose proof (push_len_nonneg (code_at code p)).
  apply IHfuel; [|exact Hd|lia|lia].
  constructor; [exact Hp|]. clear - Hp Hd H. 
  destruct Hd as [|q Hq Hql]; [apply start_nonneg in Hp; lia|].
  destruct (Z.lt_ge_cases p (zlen code)); [assumption|].
  pose proof (start_gap code p Hp q Hq ltac:(lia)). lia.
Qed.
Theorem is_dest_spec code d : is_dest code d = true <-> jumpdest code d.
Proof.
  unfold is_dest, jumpdest. rewrite !andb_true_iff, Z.leb_le, Z.ltb_lt, Z.eqb_eq. split.
  - intros [[[H0 H1] H2] H3]. split; [|auto]. eapply walk_sound; [apply start_zero|exact H1|exact H3].
  - intros (H0 & H1 & H2). pose proof (start_nonneg _ _ H0). split; [auto|].
    apply walk_complete; [apply start_zero|exact H0|lia|unfold zlen in *; lia].
Qed.

(** ** The cached analysis *)
Definition good_info (code_of : Z -> list Z) (h : Z) (i : cinfo) : Prop := compute_contract_info (code_of h) = Ok i.

Record vm_ok (keccak : list Z -> Z) (code_of : Z -> list Z) (v : vm) : Prop := mkVmOk {
  vok_infos : memo_ok kInfoCapacity (good_info code_of) (v_infos v);
  vok_hashes : sha3_ok keccak (v_hashes v);
  vok_prof : zlen (pr_calls (v_prof v)) = kCallDataSize;
  vok_profx : zlen (pr_calls (v_profx v)) = kCallDataSize;
}.

Lemma vm_new_ok keccak code_of t a : vm_ok keccak code_of (vm_new t a).
Proof.
  split.
  - apply memo_clear. unfold kInfoCapacity; lia.
  - apply sha3_new_ok.
  - reflexivity.
  - reflexivity.
Qed.

Lemma zeqb_eq a b : (a =? b) = true <-> a = b. Proof. apply Z.eqb_eq. Qed.

Lemma compute_info_ok code : zlen code <= 2 ^ 32 -> exists i, compute_contract_info code = Ok i.
Proof.
  intros Hl. unfold compute_contract_info.
  destruct (calc_valid_jump_targets_spec code) as (t & E & _); [change (2 ^ 32) with 4294967296 in Hl; change (2 ^ 63) with 9223372036854775808; lia|].
  rewrite E. eexists. reflexivity.
Qed.

Lemma contract_info_ok keccak code_of code (hash : option Z) v : vm_ok keccak code_of v ->
  zlen code <= 2 ^ 32 -> (forall h, hash = Some h -> h <> 0 -> code = code_of h) ->
  exists i c, contract_info code hash v = Ok (i, set_infos c v) /\ compute_contract_info code = Ok i /\
    vm_ok keccak code_of (set_infos c v).
Proof.
  intros Hv Hl Hh. destruct (compute_info_ok code Hl) as (i & Ei).
  assert (Esame : set_infos (v_infos v) v = v) by (destruct v; reflexivity).
  assert (Hplain : exists i c, (do! i <- compute_contract_info code; Ok (i, v)) = Ok (i, set_infos c v) /\
    compute_contract_info code = Ok i /\ vm_ok keccak code_of (set_infos c v)).
  { exists i, (v_infos v). rewrite Ei, Esame. cbn [rbind]. auto. }
  unfold contract_info. destruct (v_analysis v); [|exact Hplain]. destruct hash as [h|]; [|exact Hplain].
  destruct (Z.eqb_spec h 0) as [|Hz]; cbn [negb]; [exact Hplain|].
  specialize (Hh h eq_refl Hz). destruct Hv as [V1 V2 V3 V4].
  destruct (memo_get_or_insert Z.eqb zeqb_eq kInfoCapacity ltac:(unfold kInfoCapacity; lia) (good_info code_of) (v_infos v) h i V1) as (r & c' & E & G & M).
  { unfold good_info. rewrite <- Hh. exact Ei. }
  exists r, c'. unfold get_or_insert in E. unfold good_info in G. rewrite <- Hh in G.
  assert (HM : vm_ok keccak code_of (set_infos c' v)) by (split; assumption).
  destruct (Lru.get Z.eqb h (v_infos v)) as [[[r0|] c0]| |]; cbn [rbind] in *; try discriminate.
  - injection E as -> ->. split; [reflexivity|]. split; [exact G|exact HM].
  - rewrite Ei. cbn [rbind]. rewrite E. cbn [rbind]. split; [reflexivity|]. split; [rewrite <- Ei; exact G|exact HM].
Qed.

(** ** Observers *)
Section Exec.
Context {W : Type}.
Variable H : host W.
Variable keccak : list Z -> Z.
Variable tick : nat -> Z.
Variable bufs : nat -> list (option Z).
Variable handler : W -> message -> prog W.
Variable code_of : Z -> list Z.
Hypothesis Hhost : host_ok H.
Hypothesis Hkeccak : forall bs, is_word (keccak bs).
Hypothesis Hbufs : forall n, zlen (bufs n) = 1024.
Hypothesis Hhandler : handler_ok handler code_of.

Notation ok := (vm_ok keccak code_of).
Notation exec := (exec H keccak tick bufs false handler).
Notation eval := (eval H keccak handler).

Lemma ok_set_log l v : ok v -> ok (set_log l v). Proof. intros [? ? ? ?]. split; assumption. Qed.
Lemma ok_next_acq v : ok v -> ok (next_acq v). Proof. intros [? ? ? ?]. split; assumption. Qed.
Lemma ok_set_hashes c v : sha3_ok keccak c -> ok v -> ok (set_hashes c v). Proof. intros ? [? ? ? ?]. split; assumption. Qed.
Lemma ok_set_prof mode p v : zlen (pr_calls p) = kCallDataSize -> ok v -> ok (next_time (set_prof mode p v)).
Proof. intros ? [? ? ? ?]. destruct mode; split; assumption. Qed.
Lemma ok_get_prof mode v : ok v -> zlen (pr_calls (get_prof mode v)) = kCallDataSize.
Proof. intros [? ? ? ?]. destruct mode; assumption. Qed.

Lemma vm_hash_ok v bs : ok v -> exists v', vm_hash keccak v bs = Ok (keccak bs, v') /\ ok v'.
Proof.
  intros Hv. unfold vm_hash. destruct (sha3_hash_ok keccak (v_hashes v) bs (vok_hashes _ _ _ Hv)) as (c & E & Hc).
  rewrite E. cbn [rbind]. eexists. split; [reflexivity|]. apply ok_set_hashes; assumption.
Qed.

(** the hooks of the profilers stay within the per-depth table *)
Lemma pre_run_len d t p : zlen (pr_calls p) = kCallDataSize -> 0 <= d <= 1024 ->
  exists p', prof_pre_run d t p = Ok p' /\ zlen (pr_calls p') = kCallDataSize.
Proof.
  intros Hl Hd. unfold prof_pre_run. destruct (cd_get_ok p d) as (c & E & _); [rewrite Hl; unfold kCallDataSize; lia|].
  rewrite E. cbn [rbind]. eexists. split; [reflexivity|]. rewrite cd_set_len. exact Hl.
Qed.
Lemma post_run_len d t p : zlen (pr_calls p) = kCallDataSize -> 0 <= d <= 1024 ->
  exists p', prof_post_run d t p = Ok p' /\ zlen (pr_calls p') = kCallDataSize.
Proof.
  intros Hl Hd. unfold prof_post_run. destruct (cd_get_ok p d) as (c & E & _); [rewrite Hl; unfold kCallDataSize; lia|].
  rewrite E. cbn [rbind]. destruct (d =? 0); (eexists; split; [reflexivity|]); cbn [pr_calls]; rewrite cd_set_len; exact Hl.
Qed.
Lemma pre_len mode o d t p : zlen (pr_calls p) = kCallDataSize -> 0 <= d <= 1024 ->
  exists p', prof_pre mode o d t p = Ok p' /\ zlen (pr_calls p') = kCallDataSize.
Proof.
  intros Hl Hd. unfold prof_pre. destruct (negb _); [eauto|]. destruct (is_call_opcode o); [|eexists; split; [reflexivity|exact Hl]].
  destruct (cd_get_ok p d) as (c & E & _); [rewrite Hl; unfold kCallDataSize; lia|]. rewrite E. cbn [rbind].
  match goal with |- context [cd_get ?q (d + 1)] => destruct (cd_get_ok q (d + 1)) as (c1 & E1 & _) end;
    [rewrite cd_set_len, Hl; unfold kCallDataSize; lia|].
  rewrite E1. cbn [rbind]. eexists. split; [reflexivity|]. rewrite !cd_set_len. exact Hl.
Qed.
Lemma post_len mode o d t p : zlen (pr_calls p) = kCallDataSize -> 0 <= d <= 1024 ->
  exists p', prof_post mode o d t p = Ok p' /\ zlen (pr_calls p') = kCallDataSize.
Proof.
  intros Hl Hd. unfold prof_post. destruct (negb _); [eauto|]. destruct (is_call_opcode o).
  - destruct (cd_get_ok p d) as (c & E & _); [rewrite Hl; unfold kCallDataSize; lia|]. rewrite E. cbn [rbind].
    destruct (cd_get_ok p (d + 1)) as (c1 & E1 & _); [rewrite Hl; unfold kCallDataSize; lia|].
    rewrite E1. cbn [rbind]. eexists. split; [reflexivity|exact Hl].
  - cbn [rbind]. eexists. split; [reflexivity|exact Hl].
Qed.

Lemma log_observer_ok m : obs_ok ok m log_observer.
Proof.
  split; cbn [log_observer ob_uses_context ob_pre_run ob_post_run ob_pre ob_post]; eauto.
  intros o c v _ Hrep Hv. destruct (Hrep eq_refl) as (l & R). unfold kStackSize.
  destruct (Z.eqb_spec (1024 - oc_top c) 0); [eexists; split; [reflexivity|apply ok_set_log; exact Hv]|].
  destruct l as [|x l]. { pose proof (rep_top _ _ _ R) as X. unfold zlen in X. cbn in X. lia. }
  pose proof (rep_at _ _ _ R 0 x eq_refl) as X. rewrite Z.add_0_r in X. rewrite X.
  eexists. split; [reflexivity|apply ok_set_log; exact Hv].
Qed.
Lemma prof_observer_ok mode m : 0 <= msg_depth m <= 1024 -> obs_ok ok m (prof_observer tick mode).
Proof.
  intros Hd. split; cbn [prof_observer ob_uses_context ob_pre_run ob_post_run ob_pre ob_post].
  - intros v Hv. destruct (pre_run_len (msg_depth m) (tick (v_time v)) (get_prof mode v) (ok_get_prof mode v Hv) Hd) as (p & E & Hp).
    rewrite E. cbn [rbind]. eexists. split; [reflexivity|]. apply ok_set_prof; assumption.
  - intros v Hv. destruct (post_run_len (msg_depth m) (tick (v_time v)) (get_prof mode v) (ok_get_prof mode v Hv) Hd) as (p & E & Hp).
    rewrite E. cbn [rbind]. eexists. split; [reflexivity|]. apply ok_set_prof; assumption.
  - intros o c v Em _ Hv. rewrite Em.
    destruct (pre_len mode o (msg_depth m) (tick (v_time v)) (get_prof mode v) (ok_get_prof mode v Hv) Hd) as (p & E & Hp).
    rewrite E. cbn [rbind]. eexists. split; [reflexivity|]. apply ok_set_prof; assumption.
  - intros o c v Em Hv. rewrite Em.
    destruct (post_len mode o (msg_depth m) (tick (v_time v)) (get_prof mode v) (ok_get_prof mode v Hv) Hd) as (p & E & Hp).
    rewrite E. cbn [rbind]. eexists. split; [reflexivity|]. apply ok_set_prof; assumption.
Qed.
Lemma observer_of_ok v m : 0 <= msg_depth m <= 1024 -> obs_ok ok m (observer_of tick v).
Proof.
  intros Hd. unfold observer_of. destruct (v_logging v); [apply log_observer_ok|].
  destruct (v_profiling v); [apply prof_observer_ok; exact Hd|]. destruct (v_profext v); [apply prof_observer_ok; exact Hd|].
  apply no_observer_ok.
Qed.

(** ** One Execute *)
Lemma vm_sys_ok callm call d : calls_ok call d ->
  (forall w v m, ok v -> msg_ok m -> 0 <= msg_gas m -> msg_depth m = d + 1 ->
     exists v', callm w v m = Ok (fst (call w m), snd (call w m), v') /\ ok v') ->
  sys_ok (vm_sys H keccak false callm) ok call (fun _ _ _ => True) ok d.
Proof.
  intros Hc Hm. split; cbn [vm_sys s_strict s_host s_call s_hash s_keccak].
  - reflexivity.
  - exact Hhost.
  - exact Hc.
  - intros w v m Hv _ H1 H2 H3. apply Hm; assumption.
  - intros v bs Hv _. apply vm_hash_ok. exact Hv.
  - exact Hkeccak.
Qed.

Lemma env_of_info code i m rev b : zlen code <= 2 ^ 32 -> compute_contract_info code = Ok i ->
  make_env m rev (ci_padded i) (ci_targets i) b = make_env m rev (pad_code code) (ci_targets i) b /\
  zlen (ci_targets i) = zlen code /\
  forall d, 0 <= d < zlen code -> (data_at (ci_targets i) d = 1 /\ jumpdest code d) \/ (data_at (ci_targets i) d = 0 /\ ~ jumpdest code d).
Proof.
  intros Hl E. unfold compute_contract_info in E.
  destruct (calc_valid_jump_targets_spec code) as (t & Et & T1 & T2); [change (2 ^ 32) with 4294967296 in Hl; change (2 ^ 63) with 9223372036854775808; lia|].
  rewrite Et in E. injection E as <-. cbn [ci_padded ci_targets]. auto.
Qed.

Lemma status_reports (out : outcome W) r (w' : W) : reports out r w' ->
  (mkRes (to_evmc_status_code (ir_state r)) (ir_gas r) (ir_refund r) (ir_output r) 0, w') = result_of out.
Proof.
  destruct out as [f|h d f|e f]; cbn [reports result_of]; [contradiction| |].
  - intros (-> & -> & -> & -> & ->). destruct h; reflexivity.
  - intros (-> & -> & -> & -> & ->). destruct e; reflexivity.
Qed.

Lemma result_call_ok m (w : W) out : 0 <= msg_gas m -> end_good (initial m w) out -> call_ok m (fst (result_of out)).
Proof.
  intros Hg. destruct out as [f|h d f|e f]; cbn [end_good result_of fst]; [contradiction| |]; cbn [initial f_gas f_refund].
  - intros ([D1 D2 D3 D4] & Hb & Hl). cbn [initial f_gas f_refund] in *.
    split; cbn [cr_gas_left cr_gas_refund cr_output cr_create_address]; [lia|lia|exact Hb|exact Hl|unfold is_addr; lia].
  - intros Hr. split; cbn [cr_gas_left cr_gas_refund cr_output cr_create_address]; [lia|lia|constructor|reflexivity|unfold is_addr; lia].
Qed.

Theorem execute_sim callm call v w rev code m : ok v -> exec_ok code_of code m ->
  calls_ok call (msg_depth m) ->
  (forall w v m', ok v -> msg_ok m' -> 0 <= msg_gas m' -> msg_depth m' = msg_depth m + 1 ->
     exists v', callm w v m' = Ok (fst (call w m'), snd (call w m'), v') /\ ok v') ->
  exists v', execute H keccak tick bufs false callm v w rev code m =
      Ok (fst (evaluate H keccak call w rev code m), snd (evaluate H keccak call w rev code m), v') /\ ok v' /\
    (0 <= msg_gas m -> call_ok m (fst (evaluate H keccak call w rev code m))).
Proof.
  intros Hv [M1 M2 M3 M4 M5] Hc Hm. unfold execute.
  destruct (contract_info_ok keccak code_of code (msg_code_hash m) v Hv M4 M5) as (i & c & E1 & Ei & Hv1).
  rewrite E1. cbn [rbind]. set (v1 := set_infos c v) in *.
  destruct (env_of_info code i m rev (v_sha3 v1) M4 Ei) as (Ee & T1 & T2). rewrite Ee.
  pose proof (vm_sys_ok callm call (msg_depth m) Hc Hm) as HS.
  destruct (interpret_sim (vm_sys H keccak false callm) ok call (fun _ _ _ => True) ok m rev code (ci_targets i) (v_sha3 v1) (is_dest code)
    HS M1 M3 M4 T1 T2 (is_dest_spec code) (fun _ _ _ _ => I) (fun _ h => h)
    (observer_of tick v1) (S (Z.to_nat (msg_gas m))) (bufs (v_acq v1)) w (next_acq v1))
    as (out & r & w' & v2 & E2 & Hv2 & HR & HG & HP).
  - apply observer_of_ok. pose proof (mok_depth _ M1). lia.
  - apply Hbufs.
  - apply ok_next_acq. exact Hv1.
  - lia.
  - change (interpret (vm_sys H keccak false callm) (make_env m rev (pad_code code) (ci_targets i) (v_sha3 v1))
      (observer_of tick v1) (S (Z.to_nat (msg_gas m))) (bufs (v_acq v1)) w (next_acq v1) = Ok (r, w', v2)) in E2.
    rewrite E2. cbn [rbind]. exists v2.
    change (s_host (vm_sys H keccak false callm)) with H in HR. change (s_keccak (vm_sys H keccak false callm)) with keccak in HR.
    assert (Eev : evaluate H keccak call w rev code m = result_of out) by (unfold evaluate; rewrite HR; reflexivity).
    rewrite Eev, <- (status_reports _ _ _ HP). cbn [fst snd]. split; [reflexivity|]. split; [exact Hv2|].
    intros Hg. pose proof (result_call_ok m w out Hg HG) as X. rewrite <- (status_reports _ _ _ HP) in X. exact X.
Qed.

(** ** Execute with re-entry *)
Lemma play_ok n m p : prog_ok code_of m p -> msg_depth m <= 1025 ->
  (forall w rev code m' v, msg_depth m' = msg_depth m -> exec_ok code_of code m' -> ok v ->
     exists v', exec n v w rev code m' = Ok (fst (eval n w rev code m'), snd (eval n w rev code m'), v') /\ ok v' /\
       (0 <= msg_gas m' -> call_ok m' (fst (eval n w rev code m')))) ->
  call_ok m (fst (play (eval n) p)) /\
  forall v, ok v -> exists v', run_prog (exec n) p v = Ok (fst (play (eval n) p), snd (play (eval n) p), v') /\ ok v'.
Proof.
  intros HP Hd IH. induction HP as [r w Hr|w rev code m' k He Hdm Hg Hk IHk].
  - split; [exact Hr|]. intros v Hv. exists v. auto.
  - cbn [play run_prog].
    assert (HC : call_ok m' (fst (eval n w rev code m'))).
    { destruct (IH w rev code m' (vm_new 0 0) Hdm He (vm_new_ok _ _ _ _)) as (v' & _ & _ & X). apply X. exact Hg. }
    destruct (eval n w rev code m') as [r w'] eqn:Eev. cbn [fst snd] in *.
    destruct (IHk r w' HC) as [A B]. split; [exact A|]. intros v Hv.
    destruct (IH w rev code m' v Hdm He Hv) as (v1 & E1 & Hv1 & _). rewrite E1, Eev. cbn [rbind fst snd].
    apply B. exact Hv1.
Qed.

(** calls to the host from depth [d] *)
Lemma vm_call_ok n d : 0 <= d <= 1024 ->
  (forall v w rev code m, ok v -> exec_ok code_of code m -> msg_depth m = d + 1 ->
    exists v', exec n v w rev code m = Ok (fst (eval n w rev code m), snd (eval n w rev code m), v') /\ ok v' /\
      (0 <= msg_gas m -> call_ok m (fst (eval n w rev code m)))) ->
  calls_ok (fun w m => play (eval n) (handler w m)) d /\
  (forall w v m, ok v -> msg_ok m -> 0 <= msg_gas m -> msg_depth m = d + 1 ->
     exists v', vm_call H keccak tick bufs false handler n w v m =
       Ok (fst (play (eval n) (handler w m)), snd (play (eval n) (handler w m)), v') /\ ok v').
Proof.
  intros Hd IH.
  assert (Hsub : forall w m', msg_ok m' -> 0 <= msg_gas m' -> msg_depth m' = d + 1 ->
    call_ok m' (fst (play (eval n) (handler w m'))) /\
    forall v, ok v -> exists v', run_prog (exec n) (handler w m') v =
       Ok (fst (play (eval n) (handler w m')), snd (play (eval n) (handler w m')), v') /\ ok v').
  { intros w0 m' H1 H2 H3.
    apply play_ok; [apply Hhandler; [exact H1|exact H2|lia]|lia|].
    intros w1 rev1 code1 m1 v1 Hd1 He1 Hv1. apply IH; [exact Hv1|exact He1|lia]. }
  split; [intros w m' H1 H2 H3|intros w v m' H0 H1 H2 H3]; apply Hsub; assumption.
Qed.

Theorem exec_sim_vm : forall n v w rev code m, ok v -> exec_ok code_of code m -> (1025 - msg_depth m <= Z.of_nat n) ->
  exists v', exec n v w rev code m = Ok (fst (eval n w rev code m), snd (eval n w rev code m), v') /\ ok v' /\
    (0 <= msg_gas m -> call_ok m (fst (eval n w rev code m))).
Proof.
  induction n; intros v w rev code m Hv He Hn; [pose proof (eok_depth _ _ _ He); lia|].
  cbn [Vm.exec SpecVm.eval].
  pose proof (mok_depth _ (eok_msg _ _ _ He)). pose proof (eok_depth _ _ _ He).
  destruct (vm_call_ok n (msg_depth m) ltac:(lia)) as [A B].
  { intros. apply IHn; [assumption|assumption|lia]. }
  apply execute_sim; [exact Hv|exact He|exact A|exact B].
Qed.
(** the same for the calls made while stepping through a message *)
Corollary vm_call_sim n d : 0 <= d <= 1024 -> 1025 - (d + 1) <= Z.of_nat n ->
  calls_ok (fun w m => play (eval n) (handler w m)) d /\
  (forall w v m, ok v -> msg_ok m -> 0 <= msg_gas m -> msg_depth m = d + 1 ->
     exists v', vm_call H keccak tick bufs false handler n w v m =
       Ok (fst (play (eval n) (handler w m)), snd (play (eval n) (handler w m)), v') /\ ok v').
Proof. intros Hd Hn. apply vm_call_ok; [exact Hd|]. intros. apply exec_sim_vm; [assumption|assumption|lia]. Qed.
End Exec.
