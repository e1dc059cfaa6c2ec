(** StepN: it executes the reference semantics instruction by instruction. *)
From Verif Require Import Base Host Uint256 Memory Opcodes Interp SpecEvm SpecTrace SpecVm MemFacts JumpFacts SimBase SpecFacts Sim
  Lru Sha3 MemoFacts Profiler Vm VmFacts SpecStep.
From Coq Require Import Lia ZArith List Bool.

(** ** Stack slots stay initialised *)
Definition ile (b b' : list (option Z)) : Prop :=
  zlen b' = zlen b /\ forall i x, znth b i = Some (Some x) -> exists y, znth b' i = Some (Some y).
Lemma ile_refl b : ile b b. Proof. split; eauto. Qed.
Lemma ile_trans a b c : ile a b -> ile b c -> ile a c.
Proof. intros [L1 H1] [L2 H2]. split; [congruence|]. intros i x Hx. destruct (H1 i x Hx) as (y & Hy). eauto. Qed.

Section Keeps.
Context {W SH : Type}.
Variable S : sys W SH.
Variable e : env.
Notation mst := (mst W SH).
Notation M := (M (W:=W) (SH:=SH)).

Definition keeps {A} (m : M A) : Prop := forall s a s', m s = Ok (a, s') -> ile (m_buf s) (m_buf s').
Lemma keeps_bind {A B} (m : M A) (k : A -> M B) : keeps m -> (forall a, keeps (k a)) -> keeps (bind m k).
Proof.
  intros Hm Hk s b s' E. unfold bind in E. destruct (m s) as [[a s1]| |] eqn:E1; try discriminate.
  eapply ile_trans; [eapply Hm; exact E1|eapply Hk; exact E].
Qed.
Lemma keeps_ret {A} (a : A) : keeps (ret a).
Proof. intros s b s' E. injection E as <- <-. apply ile_refl. Qed.
Lemma keeps_lift {A} (r : res A) : keeps (lift r).
Proof. intros s b s' E. unfold lift in E. destruct r; try discriminate. injection E as <- <-. apply ile_refl. Qed.
Lemma keeps_rd t i : keeps (rd t i).
Proof. intros s b s' E. unfold rd in E. destruct (znth _ _) as [[?|]|]; try discriminate. injection E as <- <-. apply ile_refl. Qed.
Lemma keeps_wr t i v : keeps (wr t i v).
Proof.
  intros s b s' E. unfold wr in E. destruct (Z.leb_spec 0 (t + i)), (Z.ltb_spec (t + i) (zlen (m_buf s))); try discriminate.
  injection E as <- <-. cbn [set_buf m_buf]. split; [apply list_upd_zlen|]. intros j x Hj.
  rewrite znth_list_upd by lia. destruct (j =? t + i); eauto.
Qed.
Lemma keeps_same {A} (m : M A) : (forall s a s', m s = Ok (a, s') -> m_buf s' = m_buf s) -> keeps m.
Proof. intros Hm s a s' E. rewrite (Hm _ _ _ E). apply ile_refl. Qed.
Ltac same := apply keeps_same; intros ? ? ? E;
  repeat match type of E with
  | (do! ' _ <- ?r; _) = _ => destruct r as [[? ?]| |]; try discriminate; cbn [rbind] in E
  | rbind ?r _ = _ => destruct r; try discriminate; cbn [rbind] in E
  | (let '(_, _) := ?r in _) = _ => destruct r
  end; injection E as <- <-; reflexivity.
Lemma keeps_get_w : keeps (get_w (W:=W) (SH:=SH)). Proof. unfold get_w. same. Qed.
Lemma keeps_put_w (w : W) : keeps (put_w (SH:=SH) w). Proof. unfold put_w. same. Qed.
Lemma keeps_get_mem : keeps (get_mem (W:=W) (SH:=SH)). Proof. unfold get_mem. same. Qed.
Lemma keeps_put_mem m : keeps (put_mem (W:=W) (SH:=SH) m). Proof. unfold put_mem. same. Qed.
Lemma keeps_get_ret : keeps (get_ret (W:=W) (SH:=SH)). Proof. unfold get_ret. same. Qed.
Lemma keeps_put_ret r : keeps (put_ret (W:=W) (SH:=SH) r). Proof. unfold put_ret. same. Qed.
Lemma keeps_add_ref d : keeps (add_ref (W:=W) (SH:=SH) d). Proof. unfold add_ref. same. Qed.
Lemma keeps_access_account a : keeps (host_access_account S a). Proof. unfold host_access_account. same. Qed.
Lemma keeps_access_storage a k : keeps (host_access_storage S a k). Proof. unfold host_access_storage. same. Qed.
Lemma keeps_set_storage a k v : keeps (host_set_storage S a k v). Proof. unfold host_set_storage. same. Qed.
Lemma keeps_selfdestruct a b : keeps (host_selfdestruct S a b). Proof. unfold host_selfdestruct. same. Qed.
Lemma keeps_call m : keeps (host_call S m).
Proof. unfold host_call. apply keeps_same. intros s a s' E. destruct (s_call _ _ _ _) as [[[? ?] ?]| |]; try discriminate. injection E as <- <-. reflexivity. Qed.
Lemma keeps_mem_cost a b : keeps (mem_cost (W:=W) (SH:=SH) a b). Proof. unfold mem_cost. same. Qed.
Lemma keeps_get_span a b : keeps (memory_get_span S a b). Proof. unfold memory_get_span. same. Qed.
Lemma keeps_read_from a b : keeps (memory_read_from S a b). Proof. unfold memory_read_from. same. Qed.
Lemma keeps_read_from_ws a b c : keeps (memory_read_from_with_size S a b c). Proof. unfold memory_read_from_with_size. same. Qed.
Lemma keeps_write_to a b : keeps (memory_write_to S a b). Proof. unfold memory_write_to. same. Qed.
Lemma keeps_mem_copy a b c : keeps (memory_mem_copy S a b c). Proof. unfold memory_mem_copy. same. Qed.
Lemma keeps_grow a b : keeps (memory_grow (W:=W) (SH:=SH) a b). Proof. unfold memory_grow. same. Qed.
Lemma keeps_hash bs : keeps (fun s : mst => do! '(h, sh) <- s_hash S (m_sh s) bs; Ok (h, set_sh sh s)). Proof. same. Qed.
Lemma keeps_add_refs ds : keeps (add_refs (W:=W) (SH:=SH) ds).
Proof. induction ds; cbn [add_refs]; [apply keeps_ret|apply keeps_bind; [apply keeps_add_ref|intros; assumption]]. Qed.
Lemma keeps_topics k : forall t i, keeps (read_topics (W:=W) (SH:=SH) k t i).
Proof.
  induction k; intros t i; cbn [read_topics]; [apply keeps_ret|]. apply keeps_bind; [apply keeps_rd|]. intros.
  apply keeps_bind; [apply IHk|]. intros. apply keeps_ret.
Qed.

Ltac kp := repeat (intros; match goal with
  | |- keeps (bind _ _) => apply keeps_bind
  | |- keeps (ret _) => apply keeps_ret
  | |- keeps (lift _) => apply keeps_lift
  | |- keeps (rd _ _) => apply keeps_rd
  | |- keeps (wr _ _ _) => apply keeps_wr
  | |- keeps (Interp.fail _) => apply keeps_ret
  | |- keeps (dyn _) => apply keeps_ret
  | |- keeps cont => apply keeps_ret
  | |- keeps (if ?b then _ else _) => destruct b
  | |- keeps (match ?x with _ => _ end) => destruct x
  | |- keeps (add_refs _) => apply keeps_add_refs
  | |- keeps (read_topics _ _ _) => apply keeps_topics
  | |- _ => first [ apply keeps_get_w | apply keeps_put_w | apply keeps_get_mem | apply keeps_put_mem | apply keeps_get_ret
      | apply keeps_put_ret | apply keeps_add_ref | apply keeps_access_account | apply keeps_access_storage | apply keeps_set_storage
      | apply keeps_selfdestruct | apply keeps_call | apply keeps_mem_cost | apply keeps_get_span | apply keeps_read_from
      | apply keeps_read_from_ws | apply keeps_write_to | apply keeps_mem_copy | apply keeps_grow | apply keeps_hash ]
  end).

Lemma keeps_op o top pc gas : keeps (op_run S e o top pc gas).
Proof.
  destruct o; cbn [op_run];
  unfold op_binary, op_unary, op_push, op_div, op_sdiv, op_mod, op_smod, op_addmod, op_mulmod, op_exp, op_sha3, op_account_query,
    account_access_cost, op_tx, op_calldataload, op_calldatacopy, op_codecopy, op_extcodecopy, op_returndatacopy, op_blockhash,
    op_selfbalance, op_blobhash, op_mcopy, op_mload, op_mstore, op_mstore8, op_sload, op_sstore, op_pc, op_msize, op_tload, op_tstore,
    op_pushn, op_dup, op_swap, op_log, op_return, op_selfdestruct, op_create, op_call, spend, subspan_or_empty, op_push, account_access_cost; kp.
Qed.
Lemma keeps_run_op stepping o pc gas top size : keeps (run_op S e stepping o pc gas top size).
Proof. unfold run_op, run_error, run_jump, check_jump_dest. cbv zeta. kp. apply keeps_op. Qed.
Lemma keeps_exec_one stepping l s l' s' : exec_one S e no_observer stepping l s = Ok (l', s') -> ile (m_buf s) (m_buf s').
Proof.
  unfold exec_one. destruct (fetch e (l_pc l)) as [o| |]; cbn [rbind]; try discriminate.
  destruct (deref_pc (l_pc l)) as [p| |]; cbn [rbind]; try discriminate. cbn [no_observer ob_pre ob_post rbind].
  destruct (run_op S e stepping o p (l_gas l) (l_top l) (l_size l) (set_sh (m_sh s) s)) as [[r s1]| |] eqn:E1; cbn [rbind]; try discriminate.
  destruct (_ && _); [discriminate|]. intros E. injection E as <- <-. cbn [set_sh m_buf]. apply keeps_run_op in E1. exact E1.
Qed.
Lemma keeps_step_loop n : forall l s l' s', step_loop S e no_observer n l s = Ok (l', s') -> ile (m_buf s) (m_buf s').
Proof.
  induction n; intros l s l' s' E; cbn [step_loop] in E; [injection E as <- <-; apply ile_refl|].
  destruct (is_running (l_state l)); [|injection E as <- <-; apply ile_refl].
  destruct (exec_one S e no_observer true l s) as [[l1 s1]| |] eqn:E1; cbn [rbind] in E; try discriminate.
  eapply ile_trans; [eapply keeps_exec_one; exact E1|eapply IHn; exact E].
Qed.
Lemma keeps_n_steps a w sh c s' : interpret_n_steps S e a w sh = Ok (c, s') -> ile (sa_buf a) (m_buf s').
Proof.
  unfold interpret_n_steps. destruct (step_loop _ _ _ _ _ _) as [[l1 s1]| |] eqn:E1; cbn [rbind]; try discriminate.
  intros E. apply keeps_step_loop in E1. cbn [m_buf] in E1. unfold epilogue in E.
  destruct (l_state l1); cbn in E; injection E as <- <-; exact E1.
Qed.
End Keeps.

(** ** Reading arguments and writing results *)
Lemma push_all_ok vs : forall buf top l, rep buf top l -> zlen l + zlen vs <= 1024 ->
  exists buf', push_all vs buf top = Ok (buf', top - zlen vs) /\ rep buf' (top - zlen vs) (rev vs ++ l).
Proof.
  induction vs as [|v vs IH]; intros buf top l R Hl; cbn [push_all].
  - exists buf. rewrite zlen_nil, Z.sub_0_r. auto.
  - rewrite zlen_cons in *. pose proof (zlen_nonneg vs). pose proof (zlen_nonneg l). pose proof (rep_top _ _ _ R). pose proof (rep_len _ _ _ R).
    destruct (Z.leb_spec 0 (top - 1)), (Z.ltb_spec (top - 1) (zlen buf)); try lia. cbn [andb].
    destruct (IH _ (top - 1) (v :: l) (SimBase.rep_push _ _ _ v R ltac:(lia))) as (b' & E & R'); [rewrite zlen_cons; lia|].
    exists b'. replace (top - (zlen vs + 1)) with (top - 1 - zlen vs) by lia. change (top - 1) with (top + -1) at 1. split; [exact E|].
    cbn [rev]. rewrite <- app_assoc. exact R'.
Qed.
Lemma read_stack_ok l : forall buf top, rep buf top l -> read_stack (Z.to_nat (1024 - top)) buf top = Ok (rev l).
Proof.
  induction l as [|x l IH]; intros buf top R; pose proof (rep_top _ _ _ R) as Ht.
  - rewrite zlen_nil in Ht. replace (Z.to_nat (1024 - top)) with 0%nat by lia. reflexivity.
  - rewrite zlen_cons in Ht. pose proof (zlen_nonneg l).
    replace (Z.to_nat (1024 - top)) with (Datatypes.S (Z.to_nat (1024 - (top + 1)))) by lia. cbn [read_stack].
    pose proof (rep_at _ _ _ R 0 x eq_refl) as E. rewrite Z.add_0_r in E. rewrite E.
    pose proof (rep_drop _ _ _ 1 R ltac:(rewrite zlen_cons; lia)) as R1. change (skipn (Z.to_nat 1) (x :: l)) with l in R1.
    rewrite (IH _ _ R1). reflexivity.
Qed.
Lemma read_stack_init n : forall buf top, 0 <= top -> (forall i, top <= i < top + Z.of_nat n -> exists x, znth buf i = Some (Some x)) ->
  exists l, read_stack n buf top = Ok l /\ zlen l = Z.of_nat n.
Proof.
  induction n; intros buf top Ht Hi; cbn [read_stack]; [exists []; auto|].
  destruct (Hi top ltac:(lia)) as (x & ->). destruct (IHn buf (top + 1)) as (l & -> & Hl); [lia|intros; apply Hi; lia|].
  cbn [rbind]. eexists. split; [reflexivity|]. rewrite zlen_app, zlen_cons, zlen_nil. lia.
Qed.
Lemma rep_ile buf buf' top l : rep buf top l -> ile buf buf' ->
  exists l', read_stack (Z.to_nat (1024 - top)) buf' top = Ok l' /\ zlen l' = zlen l.
Proof.
  intros R [_ HI]. pose proof (rep_top _ _ _ R). pose proof (rep_top0 _ _ _ R). pose proof (zlen_nonneg l).
  destruct (read_stack_init (Z.to_nat (1024 - top)) buf' top) as (l' & E & Hl); [lia| |exists l'; split; [exact E|lia]].
  intros i Hi. destruct (znth l (i - top)) as [x|] eqn:Ex.
  - apply (rep_at _ _ _ R) in Ex. replace (top + (i - top)) with i in Ex by lia. eauto.
  - apply znth_none in Ex. lia.
Qed.

Lemma read_all_ok m g a : mem_rel m g a -> a < 2 ^ 62 ->
  exists m', (if 0 <? mem_size m then mem_write_to false m (mem_size m) 0 else Ok ([], m)) = Ok (read_bytes g 0 a, m').
Proof.
  intros R Ha. pose proof (mr_nonneg _ _ _ R). pose proof (mr_size _ _ _ R) as Hs. unfold mem_size in *. fold (zlen m) in *.
  rewrite Hs. destruct (Z.ltb_spec 0 a).
  - destruct (mem_write_to_spec m g a 0 a R) as (m' & E & _); [lia|lia|]. rewrite E. eauto.
  - assert (a = 0) as -> by lia. rewrite read_bytes_nil by lia. eauto.
Qed.

(** ** StepN *)
Section StepN.
Context {W : Type}.
Variable H : host W.
Variable keccak : list Z -> Z.
Variable bufs : nat -> list (option Z).
Variable code_of : Z -> list Z.
Hypothesis Hhost : host_ok H.
Hypothesis Hkeccak : forall bs, is_word (keccak bs).
Hypothesis Hbufs : forall n, zlen (bufs n) = 1024.
Notation ok := (vm_ok keccak code_of).

Lemma steps_run_for call m rv code vd n : forall f f',
  SpecEvm.steps H call keccak m rv code vd n f f' <-> SpecEvm.run_for H call keccak m rv code vd n f = Next f'.
Proof.
  induction n; intros f f'; cbn [SpecEvm.run_for].
  - split; [inversion 1; reflexivity|intros [= ->]; constructor].
  - split.
    + inversion 1 as [|? ? f1 ? E1 E2]; subst. rewrite E1. apply IHn. exact E2.
    + destruct (SpecEvm.step H call keccak m rv code vd f) as [f1|? ? ?|? ?] eqn:E1; try discriminate.
      intros E. econstructor; [exact E1|]. apply IHn. exact E.
Qed.
Lemma run_for_app call m rv code vd a b : forall f,
  SpecEvm.run_for H call keccak m rv code vd (a + b) f =
  match SpecEvm.run_for H call keccak m rv code vd a f with Next f' => SpecEvm.run_for H call keccak m rv code vd b f' | o => o end.
Proof.
  induction a; intros f; cbn [Nat.add SpecEvm.run_for]; [reflexivity|].
  destruct (SpecEvm.step H call keccak m rv code vd f); auto.
Qed.
Lemma run_for_at call m rv code vd n k f f1 : SpecEvm.run_for H call keccak m rv code vd k f = Next f1 -> (k < n)%nat ->
  (forall f', SpecEvm.step H call keccak m rv code vd f1 <> Next f') ->
  SpecEvm.run_for H call keccak m rv code vd n f = SpecEvm.step H call keccak m rv code vd f1.
Proof.
  intros E Hk Hs. replace n with (k + Datatypes.S (n - k - 1))%nat by lia. rewrite run_for_app, E. cbn [SpecEvm.run_for].
  destruct (SpecEvm.step H call keccak m rv code vd f1) as [f'| |] eqn:E1; [exfalso; eapply Hs; reflexivity|reflexivity..].
Qed.

Section Call.
Variable callm : W -> vm -> message -> res (cresult * W * vm).
Variable call : W -> message -> cresult * W.
Variables (rv : revision) (code : list Z) (m : message).
Hypothesis Hexec : exec_ok code_of code m.
Hypothesis Hcalls : calls_ok call (msg_depth m).
Hypothesis Hcallm : forall w v m', ok v -> msg_ok m' -> 0 <= msg_gas m' -> msg_depth m' = msg_depth m + 1 ->
     exists v', callm w v m' = Ok (fst (call w m'), snd (call w m'), v') /\ ok v'.
Notation run_for := (SpecEvm.run_for H call keccak m rv code (is_dest code)).
Notation step_n := (Vm.step_n H keccak bufs false callm).

(** what is true of the state reached while still running, so that stepping can go on *)
Definition still_ok (f : frame W) : Prop :=
  - 2 ^ 63 <= f_gas f /\ 0 <= f_pc f <= zlen code + 32 /\ Forall is_word (f_stack f) /\ zlen (f_stack f) <= 1024 /\
  (forall i, 0 <= i -> is_byte (f_mem f i)) /\ (forall i, f_active f <= i -> f_mem f i = 0) /\ f_active f = 32 * words (f_active f) /\
  0 <= f_active f /\ Z.max 0 (f_gas f) + Gmem (f_active f) < 2 ^ 54 /\ Forall is_byte (f_ret f) /\ zlen (f_ret f) < 2 ^ 63 /\
  Z.abs (f_refund f) + 199 * Z.max 0 (f_gas f) < 2 ^ 62.

Lemma rel_still top (s : mst W vm) f : rel ok top s f -> inv0 code f -> still_ok f.
Proof.
  intros R [I1 I2 I3 I4]. pose proof (rel_mem _ _ _ _ R) as RM. pose proof (mr_nonneg _ _ _ RM).
  unfold still_ok. split; [exact I1|]. split; [exact I4|]. split; [apply (rel_words _ _ _ _ R)|].
  split. { pose proof (rep_top _ _ _ (rel_stack _ _ _ _ R)). pose proof (rep_top0 _ _ _ (rel_stack _ _ _ _ R)). lia. }
  split. { intros i Hi. rewrite (mr_at _ _ _ RM) by exact Hi. apply data_at_byte, (mr_bytes _ _ _ RM). }
  split. { intros i Hi. rewrite (mr_at _ _ _ RM) by lia. apply data_at_out. rewrite (mr_size _ _ _ RM). exact Hi. }
  split; [apply (mr_words _ _ _ RM)|]. split; [assumption|]. split; [exact I2|].
  split; [apply (rel_ret_bytes _ _ _ _ R)|]. split; [apply (rel_ret_len _ _ _ _ R)|exact I3].
Qed.

Lemma Gmem_words a : Gmem (32 * words a) = Gmem a.
Proof. unfold Gmem. rewrite words_mul. reflexivity. Qed.

Theorem step_n_sim v w si f : ok v -> step_ok code m si -> si_status si = STEP_RUNNING -> represents m w si f ->
  exists so w' v', step_n v w rv code m si = Ok (so, w', v') /\ ok v' /\
    step_shows H call keccak m rv code (Z.to_nat (si_steps si)) si f so w' /\
    (forall f', run_for (Z.to_nat (si_steps si)) f = Next f' -> still_ok f' /\ f_gas f' <= f_gas f).
Proof.
  intros Hv [K1 K2 K3 K4 K5 K6 K7 K8] Hst [P1 P2 P3 P4 P5 P6 P7 P8]. destruct Hexec as [M1 M2 M3 M4 M5].
  unfold Vm.step_n.
  destruct (contract_info_ok keccak code_of code (msg_code_hash m) v Hv M4 M5) as (i & c & E1 & Ei & Hv1).
  rewrite E1. cbn [rbind]. set (v1 := set_infos c v) in *.
  destruct (env_of_info code i m rv (v_sha3 v1) M4 Ei) as (Ee & T1 & T2). rewrite Ee.
  assert (R0 : rep (bufs (v_acq v1)) kStackSize []).
  { split; [apply Hbufs|unfold kStackSize; lia|reflexivity|]. intros j x Hx. rewrite znth_nil in Hx. discriminate. }
  destruct (push_all_ok (si_stack si) _ _ _ R0) as (buf & E2 & R1); [rewrite zlen_nil; lia|].
  rewrite E2. cbn [rbind]. rewrite app_nil_r, <- P3 in R1. set (top := kStackSize - zlen (si_stack si)) in *.
  assert (Hms : zlen (si_mem si) < 2 ^ 62).
  { pose proof (size_small (zlen (si_mem si)) (zlen_nonneg _) ltac:(lia)). change (2 ^ 37) with 137438953472 in *. change (2 ^ 62) with 4611686018427387904. lia. }
  destruct (mem_of_span_spec (si_mem si) K4 Hms) as (mem & E3 & RM).
  rewrite E3. cbn [rbind]. rewrite Hst. cbn [to_run_state_code].
  set (a := mkSArgs kRunning (si_pc si) (si_refunds si) buf top mem (si_steps si) (si_ret si)).
  pose proof (vm_sys_ok H keccak code_of Hhost Hkeccak callm call (msg_depth m) Hcalls Hcallm) as HS.
  assert (HF : args_frame ok m code a w (next_acq v1) f).
  { split; cbn [a sa_pc sa_top sa_buf sa_mem sa_ret sa_refunds].
    - symmetry. exact P1.
    - symmetry. exact P2.
    - split; cbn [m_buf m_mem m_ret m_ref m_w m_sh].
      + exact R1.
      + rewrite P3. apply Forall_rev. exact K2.
      + rewrite P4. destruct RM as [A1 A2 A3 A4]. split; auto. intros j Hj. rewrite P5 by exact Hj. apply A4. exact Hj.
      + symmetry. exact P6.
      + rewrite P6. exact K6.
      + rewrite P6. exact K7.
      + symmetry. exact P7.
      + symmetry. exact P8.
      + apply ok_next_acq. exact Hv1.
    - split.
      + rewrite P2. apply (mok_gas _ M1).
      + rewrite P2, P4, Gmem_words. exact K5.
      + rewrite P2, P7. exact K8.
      + rewrite P1. exact K1. }
  destruct (interpret_n_steps_sim (vm_sys H keccak false callm) ok call (fun _ _ _ => True) ok m rv code (ci_targets i) (v_sha3 v1) (is_dest code)
    HS M1 M3 M4 T1 T2 (is_dest_spec code) (fun _ _ _ _ => I) (fun _ h => h) a w (next_acq v1) f eq_refl HF) as (cx & s' & E4 & HC).
  change (interpret_n_steps (vm_sys H keccak false callm) (make_env m rv (pad_code code) (ci_targets i) (v_sha3 v1)) a w (next_acq v1) = Ok (cx, s')) in E4.
  rewrite E4. cbn [rbind]. change (sa_steps a) with (si_steps si) in HC.
  change (s_host (vm_sys H keccak false callm)) with H in HC. change (s_keccak (vm_sys H keccak false callm)) with keccak in HC.
  destruct HC as [(f' & B1 & B2 & B3 & B4 & B5 & B6 & B7)|(k & f1 & s1 & t1 & B1 & B2 & B3 & B4 & B5 & B6 & B7)].
  - rewrite steps_run_for in B1. unfold kStackSize. rewrite (read_stack_ok _ _ _ (rel_stack _ _ _ _ B5)). cbn [rbind].
    pose proof (rel_mem _ _ _ _ B5) as RM'. pose proof (inv0_mem _ _ B6) as Im.
    destruct (read_all_ok _ _ _ RM') as (m2 & E5).
    { pose proof (size_small (f_active f') (mr_nonneg _ _ _ RM') ltac:(lia)). change (2 ^ 37) with 137438953472 in *. change (2 ^ 62) with 4611686018427387904. lia. }
    rewrite E5. cbn [rbind]. eexists _, _, _. split; [reflexivity|]. split; [apply (rel_sh _ _ _ _ B5)|]. split.
    + unfold step_shows. rewrite B1. rewrite B2, B3, B4, (rel_ref _ _ _ _ B5), (rel_ret _ _ _ _ B5), (rel_w _ _ _ _ B5).
      cbn [to_evmc_step_status_code to_evmc_status_code]. split; reflexivity.
    + intros f2 E6. rewrite B1 in E6. injection E6 as <-. split; [eapply rel_still; eassumption|].
      destruct (Z.ltb_spec 0 (si_steps si)) as [Hp|Hp]; [pose proof (dec_gas _ _ _ (B7 Hp)); lia|].
      replace (Z.to_nat (si_steps si)) with 0%nat in B1 by lia. injection B1 as <-. lia.
  - rewrite steps_run_for in B2.
    set (stp := SpecEvm.step H call keccak m rv code (is_dest code)) in *.
    assert (Hns : forall g, stp f1 <> Next g) by (intros g Eg; rewrite Eg in B4; exact B4).
    pose proof (run_for_at call m rv code (is_dest code) _ _ _ _ B2 B1 Hns) as Erun. fold stp in Erun.
    destruct (stp f1) as [g|h data g|e g] eqn:Est; cbn [step_reports] in B4; [contradiction| |].
    + destruct B4 as (C1 & C2 & C3 & C4 & C5).
      pose proof (rel_stack _ _ _ _ C5) as RS. cbn [set_ret m_buf] in RS. unfold kStackSize. rewrite (read_stack_ok _ _ _ RS). cbn [rbind].
      pose proof (rel_mem _ _ _ _ C5) as RM'. cbn [set_ret m_mem] in RM'.
      destruct B5 as (D & _). pose proof (inv0_mem _ _ (af_inv _ _ _ _ _ _ _ HF)) as Im.
      destruct (read_all_ok _ _ _ RM') as (m2 & E5).
      { pose proof (dec_mem _ _ _ D). pose proof (dec_gas _ _ _ D). pose proof (size_small (f_active g) (mr_nonneg _ _ _ RM') ltac:(lia)).
        change (2 ^ 37) with 137438953472 in *. change (2 ^ 62) with 4611686018427387904. lia. }
      rewrite E5. cbn [rbind]. eexists _, _, _. split; [reflexivity|].
      pose proof (rel_sh _ _ _ _ C5) as Q1. pose proof (rel_ref _ _ _ _ C5) as Q2. pose proof (rel_w _ _ _ _ C5) as Q3.
      cbn [set_ret m_sh m_ref m_w] in Q1, Q2, Q3. split; [exact Q1|]. split.
      * unfold step_shows. rewrite Erun. rewrite C1, C2, C3, C4, Q2, Q3. destruct h; split; reflexivity.
      * intros f2 E6. rewrite Erun in E6. discriminate.
    + destruct B4 as (C1 & C2 & C3 & C4 & C5 & C6 & C7 & C8 & C9 & C10).
      change (sa_top a) with top in C4.
      pose proof (keeps_n_steps _ _ _ _ _ _ _ E4) as HI. change (sa_buf a) with buf in HI.
      destruct (rep_ile _ _ _ _ R1 HI) as (l' & E6 & Hl'). unfold kStackSize. rewrite C4, E6. cbn [rbind].
      pose proof (rel_mem _ _ _ _ B3) as RM'. rewrite C6.
      assert (Hact : f_active f1 < 2 ^ 62).
      { pose proof (mr_nonneg _ _ _ RM') as Hnn.
        assert (Hg1 : Gmem (f_active f1) < 2 ^ 54).
        { pose proof (inv0_mem _ _ (af_inv _ _ _ _ _ _ _ HF)) as Im.
          pose proof (inv0_mem _ _ B7). lia. }
        pose proof (size_small (f_active f1) Hnn Hg1).
        change (2 ^ 37) with 137438953472 in *. change (2 ^ 62) with 4611686018427387904. lia. }
      destruct (read_all_ok _ _ _ RM' Hact) as (m2 & E5).
      rewrite E5. cbn [rbind]. eexists _, _, _. split; [reflexivity|]. split; [exact C10|]. split.
      * unfold step_shows. rewrite Erun. exists k, f1. split; [exact B1|]. split; [exact B2|]. split; [exact Est|].
        cbn [so_step so_status so_rev so_gas so_refund so_output so_last so_mem so_stack]. rewrite C1, C2, C3, C8, C9.
        split; [destruct e; reflexivity|]. split; [destruct e; reflexivity|]. split; [reflexivity|]. split; [reflexivity|].
        split; [apply (rel_ref _ _ _ _ B3)|]. split; [reflexivity|]. split; [reflexivity|]. split; [reflexivity|]. split; [reflexivity|].
        split. { rewrite Hl', P3. unfold zlen. rewrite rev_length. reflexivity. }
        intros Hk. specialize (B6 Hk). subst s1. cbn [a m_buf sa_buf] in C5. rewrite C5 in E6.
        rewrite (read_stack_ok _ _ _ R1) in E6. injection E6 as <-. rewrite P3. apply rev_involutive.
      * intros f2 E7. rewrite Erun in E7. discriminate.
Qed.

(** ** No step *)
(** StepN without executing anything: a status other than RUNNING, or no steps *)
Theorem step_n_idle v w si : ok v -> step_ok code m si -> si_status si <> STEP_RUNNING \/ si_steps si <= 0 ->
  exists v', step_n v w rv code m si = Ok (
    let failed := match si_status si with STEP_FAILED | STEP_OTHER => true | _ => false end in
    let data := match si_status si with STEP_RUNNING | STEP_RETURNED | STEP_REVERTED => si_ret si | _ => [] end in
    mkOut (if failed then STEP_FAILED else si_status si)
      (match si_status si with STEP_RUNNING => EVMC_FAILURE | STEP_STOPPED | STEP_RETURNED => EVMC_SUCCESS | STEP_REVERTED => EVMC_REVERT
         | STEP_FAILED => EVMC_INVALID_INSTRUCTION | STEP_OTHER => EVMC_UNDEFINED_INSTRUCTION end)
      rv (si_pc si) (if failed then 0 else msg_gas m) (si_refunds si) data (si_stack si)
      (read_bytes (data_at (si_mem si)) 0 (32 * words (zlen (si_mem si)))) data, w, v') /\ ok v'.
Proof.
  intros Hv [K1 K2 K3 K4 K5 K6 K7 K8] Hidle. destruct Hexec as [M1 M2 M3 M4 M5].
  unfold Vm.step_n.
  destruct (contract_info_ok keccak code_of code (msg_code_hash m) v Hv M4 M5) as (i & c & E1 & Ei & Hv1).
  rewrite E1. cbn [rbind]. set (v1 := set_infos c v) in *.
  assert (R0 : rep (bufs (v_acq v1)) kStackSize []).
  { split; [apply Hbufs|unfold kStackSize; lia|reflexivity|]. intros j x Hx. rewrite znth_nil in Hx. discriminate. }
  destruct (push_all_ok (si_stack si) _ _ _ R0) as (buf & E2 & R1); [rewrite zlen_nil; lia|].
  rewrite E2. cbn [rbind]. rewrite app_nil_r in R1. set (top := kStackSize - zlen (si_stack si)) in *.
  pose proof (size_small (zlen (si_mem si)) (zlen_nonneg _) ltac:(lia)) as Hs.
  assert (Hms : zlen (si_mem si) < 2 ^ 62).
  { change (2 ^ 37) with 137438953472 in *. change (2 ^ 62) with 4611686018427387904. lia. }
  destruct (mem_of_span_spec (si_mem si) K4 Hms) as (mem & E3 & RM).
  rewrite E3. cbn [rbind].
  assert (En : Z.to_nat (match si_status si with STEP_RUNNING => si_steps si | _ => 0 end) = 0%nat).
  { destruct Hidle as [Hne|Hle]; destruct (si_status si); try reflexivity; [congruence|lia]. }
  unfold interpret_n_steps. cbn [sa_steps sa_state sa_pc sa_refunds sa_buf sa_top sa_mem sa_ret]. rewrite En. cbn [step_loop rbind].
  assert (Er : read_stack (Z.to_nat (kStackSize - top)) buf top = Ok (si_stack si)).
  { unfold kStackSize. rewrite (read_stack_ok _ _ _ R1), rev_involutive. reflexivity. }
  destruct (read_all_ok _ _ _ RM) as (m2 & E5).
  { pose proof (words_bound (zlen (si_mem si))). change (2 ^ 37) with 137438953472 in *. change (2 ^ 62) with 4611686018427387904. lia. }
  exists (next_acq v1). split; [|apply ok_next_acq; exact Hv1].
  destruct (si_status si); cbn [to_run_state_code epilogue l_state l_pc l_gas l_top l_ctop is_success is_running orb negb andb c_top c_state c_pc c_gas
    set_ret m_buf m_mem m_ret m_ref m_w m_sh rbind]; rewrite Er; cbn [rbind]; rewrite E5; cbn [rbind]; reflexivity.
Qed.

(** ** Consecutive StepN calls *)
Lemma continue_ok f n so : still_ok f -> so = shown STEP_RUNNING EVMC_FAILURE rv f (f_ret f) ->
  step_ok code (with_msg_gas (so_gas so) m) (continue_in so n) /\
  represents (with_msg_gas (so_gas so) m) (f_world f) (continue_in so n) f.
Proof.
  intros (S0 & S1 & S2 & S3 & S4 & S5 & S6 & S7 & S8 & S9 & S10 & S11) ->.
  assert (Hz : zlen (read_bytes (f_mem f) 0 (f_active f)) = f_active f) by (rewrite read_bytes_zlen; lia).
  split; split; cbn [continue_in shown so_step so_pc so_refund so_stack so_mem so_last so_gas si_pc si_refunds si_stack si_mem si_ret with_msg_gas msg_gas];
    try assumption; try reflexivity.
  - apply Forall_rev. exact S2.
  - unfold zlen. rewrite rev_length. exact S3.
  - apply read_bytes_byte. intros. apply S4. lia.
  - rewrite Hz. exact S8.
  - rewrite rev_involutive. reflexivity.
  - rewrite Hz. exact S6.
  - intros i Hi. destruct (Z.lt_ge_cases i (f_active f)).
    + rewrite read_bytes_at by lia. reflexivity.
    + rewrite data_at_out by lia. apply S5. lia.
Qed.

End Call.

Section Drive.
Variable callm : W -> vm -> message -> res (cresult * W * vm).
Variable call : W -> message -> cresult * W.
Variables (rv : revision) (code : list Z) (m : message).
Hypothesis Hexec : exec_ok code_of code m.
Hypothesis Hcalls : calls_ok call (msg_depth m).
Hypothesis Hcallm : forall w v m', ok v -> msg_ok m' -> 0 <= msg_gas m' -> msg_depth m' = msg_depth m + 1 ->
     exists v', callm w v m' = Ok (fst (call w m'), snd (call w m'), v') /\ ok v'.
Notation run_for := (SpecEvm.run_for H call keccak m rv code (is_dest code)).
Notation step_n := (Vm.step_n H keccak bufs false callm).

Lemma exec_ok_gas g : - 2 ^ 63 <= g < 2 ^ 54 -> exec_ok code_of code (with_msg_gas g m).
Proof.
  intros Hg. destruct Hexec as [[A1 A2 A3 A4 A5 A6 A7 A8] M2 M3 M4 M5].
  split; [split; assumption|exact M2|exact M3|exact M4|exact M5].
Qed.
(** the reference does not look at the gas of the message but at the gas of the state *)
Lemma run_for_gas g n f : SpecEvm.run_for H call keccak (with_msg_gas g m) rv code (is_dest code) n f = run_for n f.
Proof. destruct m. reflexivity. Qed.
Lemma step_gas g f : SpecEvm.step H call keccak (with_msg_gas g m) rv code (is_dest code) f = SpecEvm.step H call keccak m rv code (is_dest code) f.
Proof. destruct m. reflexivity. Qed.

(** the result of stepping on from the state shown by [so] *)
Lemma step_on v f so n : ok v -> still_ok code f -> f_gas f < 2 ^ 54 -> so = shown STEP_RUNNING EVMC_FAILURE rv f (f_ret f) ->
  exists so' w' v', step_n v (f_world f) rv code (with_msg_gas (so_gas so) m) (continue_in so n) = Ok (so', w', v') /\ ok v' /\
    step_shows H call keccak m rv code (Z.to_nat n) (continue_in so n) f so' w' /\
    (forall f', run_for (Z.to_nat n) f = Next f' -> still_ok code f' /\ f_gas f' <= f_gas f).
Proof.
  intros Hv HS Hg Eso. destruct (continue_ok rv code m f n so HS Eso) as [K R].
  assert (Hgas : so_gas so = f_gas f) by (rewrite Eso; reflexivity).
  destruct (step_n_sim callm call rv code (with_msg_gas (so_gas so) m)
    (exec_ok_gas (so_gas so) ltac:(rewrite Hgas; destruct HS; lia)) Hcalls Hcallm v (f_world f) (continue_in so n) f Hv K ltac:(rewrite Eso; reflexivity) R)
    as (so' & w' & v' & E & Hv' & HSh & HN).
  exists so', w', v'. split; [exact E|]. split; [exact Hv'|]. split.
  - unfold step_shows in *. rewrite run_for_gas in HSh. exact HSh.
  - intros f' Ef. apply HN. rewrite run_for_gas. exact Ef.
Qed.

(** the final state is the same however the steps are grouped; only the stack shown after a failure may differ *)
Definition agree (so so' : step_out) : Prop :=
  so_step so = so_step so' /\ so_status so = so_status so' /\ so_rev so = so_rev so' /\ so_gas so = so_gas so' /\
  so_refund so = so_refund so' /\ so_output so = so_output so' /\ so_mem so = so_mem so' /\ so_last so = so_last so' /\
  (so_step so <> STEP_FAILED -> so = so').

Lemma shows_agree n si si' f so so' w w' : step_shows H call keccak m rv code n si f so w -> step_shows H call keccak m rv code n si' f so' w' ->
  agree so so' /\ w = w'.
Proof.
  unfold step_shows, agree. destruct (run_for n f) as [f'|h d f'|e f'].
  - intros [-> ->] [-> ->]. repeat split; reflexivity.
  - intros [-> ->] [-> ->]. repeat split; reflexivity.
  - intros (k & f1 & K1 & K2 & K3 & K4 & K5 & K6 & K7 & K8 & K9 & K10 & K11 & K12 & _)
           (k' & f1' & L1 & L2 & L3 & L4 & L5 & L6 & L7 & L8 & L9 & L10 & L11 & L12 & _).
    assert (f1' = f1 /\ k' = k) as [-> ->].
    { assert (X : forall a b g g', run_for a f = Next g -> run_for b f = Next g' ->
        SpecEvm.step H call keccak m rv code (is_dest code) g = Fail e f' -> (a < b)%nat -> False).
      { intros a b g g' Ha Hb Hs Hlt. replace b with (a + Datatypes.S (b - a - 1))%nat in Hb by lia.
        rewrite run_for_app, Ha in Hb. cbn [SpecEvm.run_for] in Hb. rewrite Hs in Hb. discriminate. }
      destruct (Nat.lt_trichotomy k k') as [Hl|[->|Hl]].
      - exfalso. exact (X _ _ _ _ K2 L2 K3 Hl).
      - split; [congruence|reflexivity].
      - exfalso. exact (X _ _ _ _ L2 K2 L3 Hl). }
    split; [|congruence]. repeat (split; [congruence|]). congruence.
Qed.

Lemma shows_app a b si si' f f1 so w : run_for a f = Next f1 -> step_shows H call keccak m rv code b si' f1 so w ->
  zlen (si_stack si') = zlen (si_stack si) \/ True ->
  forall so', step_shows H call keccak m rv code (a + b) si f so' w -> agree so' so.
Proof.
  unfold step_shows. intros E1 HS _ so' HS'. rewrite run_for_app, E1 in HS'.
  destruct (run_for b f1) as [f'|h d f'|e f'].
  - destruct HS as [-> _], HS' as [-> _]. unfold agree. repeat split; reflexivity.
  - destruct HS as [-> _], HS' as [-> _]. unfold agree. repeat split; reflexivity.
  - destruct HS as (k & g & K1 & K2 & K3 & K4 & K5 & K6 & K7 & K8 & K9 & K10 & K11 & K12 & _).
    destruct HS' as (k' & g' & L1 & L2 & L3 & L4 & L5 & L6 & L7 & L8 & L9 & L10 & L11 & L12 & _).
    assert (X : forall i j p p', run_for i f = Next p -> run_for j f = Next p' ->
        SpecEvm.step H call keccak m rv code (is_dest code) p = Fail e f' -> (i < j)%nat -> False).
    { intros i j p p' Ha Hb Hs Hlt. replace j with (i + Datatypes.S (j - i - 1))%nat in Hb by lia.
      rewrite run_for_app, Ha in Hb. cbn [SpecEvm.run_for] in Hb. rewrite Hs in Hb. discriminate. }
    assert (K2' : run_for (a + k) f = Next g) by (rewrite run_for_app, E1; exact K2).
    assert (g' = g) as ->.
    { destruct (Nat.lt_trichotomy (a + k) k') as [Hl|[<-|Hl]].
      - exfalso. exact (X _ _ _ _ K2' L2 K3 Hl).
      - congruence.
      - exfalso. exact (X _ _ _ _ L2 K2' L3 Hl). }
    unfold agree. repeat (split; [congruence|]). congruence.
Qed.

Theorem step_compose v va w si (n k : Z) : ok v -> ok va -> step_ok code m si -> si_status si = STEP_RUNNING -> 0 <= n -> 0 <= k ->
  let with_steps j := mkIn STEP_RUNNING (si_pc si) (si_refunds si) (si_stack si) (si_mem si) (si_ret si) j in
  exists so w' v' so1 w1 v1,
    step_n va w rv code m (with_steps (n + k)) = Ok (so, w', v') /\
    step_n v w rv code m (with_steps n) = Ok (so1, w1, v1) /\
    (so_step so1 <> STEP_RUNNING -> agree so so1 /\ w' = w1) /\
    (so_step so1 = STEP_RUNNING -> exists so2 v2,
       step_n v1 w1 rv code (with_msg_gas (so_gas so1) m) (continue_in so1 k) = Ok (so2, w', v2) /\ agree so so2).
Proof.
  intros Hv Hva [K1 K2 K3 K4 K5 K6 K7 K8] Hst Hn Hk with_steps.
  assert (HK : forall j, step_ok code m (with_steps j)) by (intros j; split; assumption).
  assert (HR : forall j, represents m w (with_steps j) (frame_in m w si)) by (intros j; split; reflexivity).
  destruct (step_n_sim callm call rv code m Hexec Hcalls Hcallm va w (with_steps (n + k)) _ Hva (HK _) eq_refl (HR _)) as (so & w' & v' & E0 & _ & S0 & _).
  destruct (step_n_sim callm call rv code m Hexec Hcalls Hcallm v w (with_steps n) _ Hv (HK _) eq_refl (HR _)) as (so1 & w1 & v1 & E1 & Hv1 & S1 & N1).
  exists so, w', v', so1, w1, v1. split; [exact E0|]. split; [exact E1|]. cbn [with_steps si_steps] in *.
  replace (Z.to_nat (n + k)) with (Z.to_nat n + Z.to_nat k)%nat in S0 by lia.
  destruct (run_for (Z.to_nat n) (frame_in m w si)) as [f1|h d f1|e f1] eqn:Er.
  - assert (so1 = shown STEP_RUNNING EVMC_FAILURE rv f1 (f_ret f1) /\ w1 = f_world f1) as [Eso ->] by (unfold step_shows in S1; rewrite Er in S1; exact S1).
    split; [intros Hc; exfalso; apply Hc; rewrite Eso; reflexivity|]. intros _.
    destruct (N1 f1 eq_refl) as [HS Hg]. cbn [frame_in f_gas] in Hg.
    destruct (step_on v1 f1 so1 k Hv1 HS ltac:(pose proof (mok_gas _ (eok_msg _ _ _ Hexec)); lia) Eso) as (so2 & w2 & v2 & E2 & Hv2 & S2 & _).
    exists so2, v2.
    assert (w2 = w') as ->.
    { unfold step_shows in S0, S2. rewrite run_for_app, Er in S0. destruct (run_for (Z.to_nat k) f1) as [f'|h d f'|e f'].
      - destruct S0 as [_ ->], S2 as [_ ->]. reflexivity.
      - destruct S0 as [_ ->], S2 as [_ ->]. reflexivity.
      - destruct S0 as (? & ? & _ & _ & _ & _ & _ & _ & _ & _ & _ & _ & _ & -> & _).
        destruct S2 as (? & ? & _ & _ & _ & _ & _ & _ & _ & _ & _ & _ & _ & -> & _). reflexivity. }
    split; [exact E2|]. eapply shows_app; [exact Er|exact S2|right; exact I|exact S0].
  - assert (X : step_shows H call keccak m rv code (Z.to_nat n + Z.to_nat k) (with_steps n) (frame_in m w si) so1 w1).
    { unfold step_shows in *. rewrite run_for_app. rewrite Er in *. exact S1. }
    split; [intros _; exact (shows_agree _ _ _ _ _ _ _ _ S0 X)|].
    unfold step_shows in S1. rewrite Er in S1. destruct S1 as [-> _]. cbn [shown so_step]. destruct h; discriminate.
  - assert (X : step_shows H call keccak m rv code (Z.to_nat n + Z.to_nat k) (with_steps n) (frame_in m w si) so1 w1).
    { unfold step_shows in *. rewrite run_for_app. rewrite Er in *. destruct S1 as (i & g & A1 & A2). exists i, g. split; [lia|exact A2]. }
    split; [intros _; exact (shows_agree _ _ _ _ _ _ _ _ S0 X)|].
    unfold step_shows in S1. rewrite Er in S1. destruct S1 as (? & ? & _ & _ & _ & Es & _). rewrite Es. discriminate.
Qed.

(** ** Stepping through a whole run *)
Definition drive_shows (out : outcome W) (so : step_out) (w' : W) : Prop :=
  match out with
  | Next f' => so = shown STEP_RUNNING EVMC_FAILURE rv f' (f_ret f') /\ w' = f_world f'
  | Halt h data f' => so = shown (step_halt h) (halt_status h) rv f' data /\ w' = f_world f'
  | Fail e f' => so_step so = STEP_FAILED /\ so_status so = failure_status e /\ so_rev so = rv /\ so_gas so = 0 /\
      so_refund so = f_refund f' /\ so_output so = [] /\ w' = f_world f'
  end.

Lemma fail_refund n si f so w' e f' : still_ok code f -> run_for n f = Fail e f' ->
  step_shows H call keccak m rv code n si f so w' -> (forall k f1, run_for k f = Next f1 -> still_ok code f1) -> so_refund so = f_refund f'.
Proof.
  intros HS Er Hsh Hall. unfold step_shows in Hsh. rewrite Er in Hsh.
  destruct Hsh as (k & f1 & _ & K2 & K3 & _ & _ & _ & _ & K8 & _). rewrite K8.
  pose proof (Hall k f1 K2) as HS1. destruct HS1 as (S0 & S1 & S2 & S3 & S4 & S5 & S6 & S7 & S8 & S9 & S10 & S11).
  destruct Hexec as [M1 M2 M3 M4 M5].
  destruct (Z.lt_ge_cases (f_gas f1) 0) as [Hneg|Hpos].
  - (* not enough gas for anything: the instruction has not changed the state *)
    revert K3. unfold SpecEvm.step. destruct (instruction _) as [i|] eqn:Ei.
    + pose proof (fee_nn _ _ (code_at_byte code (f_pc f1) M3) Ei).
      destruct (negb _); [intros [= <- <-]; reflexivity|]. destruct (_ && _); [intros [= <- <-]; reflexivity|].
      destruct (_ <? in_args i); [intros [= <- <-]; reflexivity|]. destruct (1024 <? _); [intros [= <- <-]; reflexivity|].
      unfold charge. destruct (Z.ltb_spec (f_gas f1) (in_fee i)); [intros [= <- <-]; reflexivity|lia].
    + destruct (f_gas f1 <? 0); intros [= <- <-]; reflexivity.
  - pose proof (step_good H call keccak m rv code (is_dest code) M1 Hcalls f1 M3) as G. rewrite K3 in G. cbn [good] in G.
    symmetry. apply G. unfold sane. split; [lia|]. split; [exact S7|]. split; [exact S2|]. split; [exact S4|]. lia.
Qed.

Lemma all_still f : still_ok code f -> f_gas f < 2 ^ 54 -> forall k f1, run_for k f = Next f1 -> still_ok code f1 /\ f_gas f1 <= f_gas f.
Proof.
  intros HS Hg k f1 Ek.
  destruct (step_on (vm_new 0 0) f (shown STEP_RUNNING EVMC_FAILURE rv f (f_ret f)) (Z.of_nat k) (vm_new_ok _ _ _ _) HS Hg eq_refl)
    as (so' & w' & v' & _ & _ & _ & HN). apply HN. rewrite Nat2Z.id. exact Ek.
Qed.

Theorem drive_ok ns : forall v f so, ok v -> still_ok code f -> f_gas f < 2 ^ 54 -> so = shown STEP_RUNNING EVMC_FAILURE rv f (f_ret f) ->
  exists so' w' v', drive (fun v w m si => step_n v w rv code m si) ns v (f_world f) m so = Ok (so', w', v') /\ ok v' /\
    drive_shows (run_for (total ns) f) so' w'.
Proof.
  induction ns as [|n ns IH]; intros v f so Hv HS Hg Eso; cbn [drive total].
  - exists so, (f_world f), v. split; [reflexivity|]. split; [exact Hv|]. cbn [SpecEvm.run_for drive_shows]. auto.
  - assert (Est : so_step so = STEP_RUNNING) by (rewrite Eso; reflexivity). rewrite Est.
    destruct (step_on v f so n Hv HS Hg Eso) as (so1 & w1 & v1 & E1 & Hv1 & S1 & N1). rewrite E1. cbn [rbind].
    rewrite run_for_app. pose proof S1 as S1'. unfold step_shows in S1'.
    destruct (run_for (Z.to_nat n) f) as [f1|h d f1|e f1] eqn:Er.
    + destruct S1' as [Eso1 ->]. destruct (N1 f1 eq_refl) as [HS1 Hg1]. apply IH; [exact Hv1|exact HS1|lia|exact Eso1].
    + destruct S1' as [-> ->]. exists (shown (step_halt h) (halt_status h) rv f1 d), (f_world f1), v1.
      assert (step_halt h <> STEP_RUNNING) as Hh by (destruct h; discriminate).
      split. { destruct ns; cbn [drive]; [reflexivity|]. cbn [shown so_step]. destruct h; reflexivity. }
      split; [exact Hv1|]. cbn [drive_shows]. auto.
    + pose proof (fail_refund _ _ _ _ _ _ _ HS Er S1 (fun k g E => proj1 (all_still f HS Hg k g E))) as Href.
      destruct S1' as (k & g & A1 & A2 & A3 & A4 & A5 & A6 & A7 & A8 & A9 & A10 & A11 & A12 & A13).
      exists so1, w1, v1. split. { destruct ns; cbn [drive]; [reflexivity|]. rewrite A4. reflexivity. }
      split; [exact Hv1|]. cbn [drive_shows]. auto 10.
Qed.

Lemma initial_still w : still_ok code (initial m w).
Proof.
  destruct Hexec as [M1 M2 M3 M4 M5]. pose proof (mok_gas _ M1). pose proof (zlen_nonneg code).
  unfold still_ok. cbn [initial f_gas f_pc f_stack f_mem f_active f_ret f_refund].
  split; [lia|]. split; [lia|]. split; [constructor|]. split; [cbn; lia|]. split; [intros; unfold is_byte; lia|].
  split; [reflexivity|]. split; [reflexivity|]. split; [lia|]. change (Gmem 0) with 0. split; [lia|]. split; [constructor|]. split; [reflexivity|]. lia.
Qed.

(** stepping to completion, in whatever portions, gives what Execute gives *)
Theorem drive_evaluate ns v w : ok v -> (S (Z.to_nat (msg_gas m)) <= total ns)%nat ->
  exists so w' v', drive (fun v w m si => step_n v w rv code m si) ns v w m (start_out m rv) = Ok (so, w', v') /\ ok v' /\
    evaluate H keccak call w rv code m = (mkRes (so_status so) (so_gas so) (so_refund so) (so_output so) 0, w') /\
    so_step so = match so_status so with EVMC_SUCCESS => so_step so | EVMC_REVERT => STEP_REVERTED | _ => STEP_FAILED end /\
    so_step so <> STEP_RUNNING.
Proof.
  intros Hv Hn. pose proof (mok_gas _ (eok_msg _ _ _ Hexec)) as Hg.
  destruct (drive_ok ns v (initial m w) (start_out m rv) Hv (initial_still w) ltac:(cbn; lia) eq_refl) as (so & w' & v' & E & Hv' & HS).
  change (f_world (initial m w)) with w in E. exists so, w', v'. split; [exact E|]. split; [exact Hv'|].
  (* Execute reaches the end within gas + 1 instructions *)
  assert (Hsys : sys_ok (vm_sys H keccak false callm) ok call (fun _ _ _ => True) ok (msg_depth m)) by (apply vm_sys_ok; assumption).
  destruct (execute_sim H keccak (fun _ => 0) bufs code_of Hhost Hkeccak Hbufs callm call v w rv code m Hv Hexec Hcalls Hcallm) as (v2 & _ & _ & _).
  assert (Hfin : exists out, run_for (S (Z.to_nat (msg_gas m))) (initial m w) = out /\ forall f', out <> Next f').
  { destruct Hexec as [M1 M2 M3 M4 M5]. destruct (compute_info_ok code M4) as (i & Ei).
    destruct (env_of_info code i m rv false M4 Ei) as (_ & T1 & T2).
    destruct (interpret_sim (vm_sys H keccak false callm) ok call (fun _ _ _ => True) ok m rv code (ci_targets i) false (is_dest code)
      Hsys M1 M3 M4 T1 T2 (is_dest_spec code) (fun _ _ _ _ => I) (fun _ h => h)
      no_observer (S (Z.to_nat (msg_gas m))) (bufs 0) w v (no_observer_ok _ _) (Hbufs 0) Hv ltac:(lia)) as (out & r & w2 & sh & _ & _ & E2 & EG & _).
    exists out. split; [exact E2|]. intros f' ->. exact EG. }
  destruct Hfin as (out & Eout & Hfin).
  assert (Etot : run_for (total ns) (initial m w) = out).
  { replace (total ns) with (S (Z.to_nat (msg_gas m)) + (total ns - S (Z.to_nat (msg_gas m))))%nat by lia.
    rewrite run_for_app, Eout. destruct out as [f'| |]; [exfalso; exact (Hfin f' eq_refl)|reflexivity..]. }
  rewrite Etot in HS. unfold evaluate. rewrite Eout.
  destruct out as [f'|h d f'|e f']; cbn [drive_shows result_of] in *; [exfalso; exact (Hfin f' eq_refl)| |].
  - destruct HS as [-> ->]. split; [reflexivity|]. cbn [shown so_status so_step]. destruct h; split; try reflexivity; discriminate.
  - destruct HS as (A1 & A2 & A3 & A4 & A5 & A6 & A7). rewrite A1, A2, A4, A5, A6, A7. split; [reflexivity|].
    destruct e; split; try reflexivity; discriminate.
Qed.
End Drive.
End StepN.
