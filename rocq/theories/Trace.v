(** What observers see: the hooks called during an execution are those of the reference's tree of runs. *)
From Verif Require Import Base Host Memory Opcodes Interp SpecEvm SpecTrace SpecVm MemFacts JumpFacts SimBase SpecFacts Sim
  Lru LruFacts LruConcFacts Sha3 MemoFacts Profiler ProfilerFacts Vm VmFacts.
From Coq Require Import Lia ZArith List Bool.

(** the op code reported to observers for a code byte *)
Definition op_of (b : Z) : opcode := match znth dispatch_table b with Some o => o | None => INVALID end.

(** ** Effects of trees of runs *)
Section Chain.
Context {A X : Type}.
Variable R : A -> X -> X -> Prop.
Fixpoint chain (l : list A) (x x' : X) : Prop :=
  match l with [] => x' = x | a :: l => exists y, R a x y /\ chain l y x' end.
End Chain.

Section Effect.
Context {X : Type}.
Variables (prun qrun : message -> X -> X -> Prop) (pre post : message -> event -> X -> X -> Prop).
Definition tree_depth (t : tree) : Z := match t with Tree m _ => msg_depth m end.
(** the effect of a run; runs nested in an instruction (only call instructions have some) are one level deeper *)
Fixpoint effect (t : tree) (x x' : X) : Prop :=
  match t with
  | Tree m body =>
    exists a b, prun m x a /\
      chain (fun (i : event * list tree) x x' => let (e, ts) := i in
        (is_call_opcode (op_of (ev_byte e)) = false -> ts = []) /\
        exists y z, pre m e x y /\
          chain (fun t x x' => tree_depth t = msg_depth m + 1 /\ tree_depth t <= 1024 /\ effect t x x') ts y z /\ post m e z x') body a b /\
      qrun m b x'
  end.
Definition nested_effect (m : message) (t : tree) (x x' : X) : Prop :=
  tree_depth t = msg_depth m + 1 /\ tree_depth t <= 1024 /\ effect t x x'.
Definition instr_effect (m : message) (i : event * list tree) (x x' : X) : Prop :=
  let (e, ts) := i in (is_call_opcode (op_of (ev_byte e)) = false -> ts = []) /\
  exists y z, pre m e x y /\ chain (nested_effect m) ts y z /\ post m e z x'.
End Effect.

Section Trace.
Context {W SH X : Type}.
Variable S : sys W SH.
Variable ok : SH -> Prop.
Variable call : W -> message -> cresult * W.
Variable view : SH -> X.
Variables (prun qrun : message -> X -> X -> Prop) (pre post : message -> event -> X -> X -> Prop).
Variable trees : W -> message -> list tree.
Variables (msg : message) (rev : revision) (code targets : list Z) (cache : bool) (vd : Z -> bool).

Notation HH := (s_host S).
Notation E := (make_env msg rev (pad_code code) targets cache).
Notation effect := (effect prun qrun pre post).
Notation instr_effect := (instr_effect prun qrun pre post).
Notation nested_effect := (nested_effect prun qrun pre post msg).

Hypothesis Hstrict : s_strict S = false.
Hypothesis Hhost : host_ok HH.
Hypothesis Hcalls : calls_ok call (msg_depth msg).
Hypothesis Hcall : forall w sh m, ok sh -> msg_ok m -> 0 <= msg_gas m -> msg_depth m = msg_depth msg + 1 ->
  exists sh', s_call S w sh m = Ok (fst (call w m), snd (call w m), sh') /\ ok sh' /\ chain nested_effect (trees w m) (view sh) (view sh').
Hypothesis Hhash : forall sh bs, ok sh -> Forall is_byte bs ->
  exists sh', s_hash S sh bs = Ok (s_keccak S bs, sh') /\ ok sh' /\ view sh' = view sh.
Hypothesis Hkeccak : forall bs, is_word (s_keccak S bs).
Hypothesis Hmsg : msg_ok msg.
Hypothesis Hcode : Forall is_byte code.
Hypothesis Hcode_len : zlen code <= 2 ^ 32.
Hypothesis Htl : zlen targets = zlen code.
Hypothesis Htg : forall d, 0 <= d < zlen code ->
  (data_at targets d = 1 /\ jumpdest code d) \/ (data_at targets d = 0 /\ ~ jumpdest code d).
Hypothesis Hvd : forall d, vd d = true <-> jumpdest code d.

Notation asks := (asks HH msg rev code).
Notation dispatch := (dispatch HH call (s_keccak S) msg rev code vd).

Record obs_tr (ob : observer (SH:=SH)) : Prop := mkObsTr {
  ot_pre_run : forall sh, ok sh -> exists sh', ob_pre_run ob msg sh = Ok sh' /\ ok sh' /\ prun msg (view sh) (view sh');
  ot_post_run : forall sh, ok sh -> exists sh', ob_post_run ob msg sh = Ok sh' /\ ok sh' /\ qrun msg (view sh) (view sh');
  ot_pre : forall o c sh e, oc_msg c = msg -> znth dispatch_table (ev_byte e) = Some o ->
    (ob_uses_context ob = true -> oc_gas c = ev_gas e /\ exists l, SimBase.rep (oc_buf c) (oc_top c) l /\ ev_top e = nth_error l 0) ->
    ok sh -> exists sh', ob_pre ob o c sh = Ok sh' /\ ok sh' /\ pre msg e (view sh) (view sh');
  ot_post : forall o c sh e, oc_msg c = msg -> znth dispatch_table (ev_byte e) = Some o -> ok sh ->
    exists sh', ob_post ob o c sh = Ok sh' /\ ok sh' /\ post msg e (view sh) (view sh');
}.

Lemma sys_ok_at (x : X) (f : frame W) :
  sys_ok S (fun sh => ok sh /\ view sh = x) call (fun w _ m => asks f = Some (w, m))
    (fun sh => ok sh /\ exists w m, asks f = Some (w, m) /\ chain nested_effect (trees w m) x (view sh)) (msg_depth msg).
Proof.
  split; try assumption.
  - intros w sh m [H1 H2] Hm G1 G2 G3. destruct (Hcall w sh m H1 G1 G2 G3) as (sh' & E1 & E2 & E3).
    exists sh'. split; [exact E1|]. split; [exact E2|]. exists w, m. rewrite <- H2. auto.
  - intros sh bs [H1 H2] Hb. destruct (Hhash sh bs H1 Hb) as (sh' & E1 & E2 & E3). exists sh'. split; [exact E1|]. split; [exact E2|congruence].
Qed.

Notation lrel := (lrel ok).

Lemma rel_at (x : X) top (s : mst W SH) (f : frame W) : rel ok top s f -> view (m_sh s) = x -> rel (fun sh => ok sh /\ view sh = x) top s f.
Proof. intros [? ? ? ? ? ? ? ? ?] Hx. split; auto. Qed.

Definition body_of (f : frame W) : event * list tree :=
  (event_of code f, match asks f with Some (w, m) => trees w m | None => [] end).

Lemma asks_call f o : znth dispatch_table (code_at code (f_pc f)) = Some o ->
  is_call_opcode (op_of (code_at code (f_pc f))) = false -> match asks f with Some (w, m) => trees w m | None => [] end = [].
Proof.
  intros Eo Hn. unfold op_of in Hn. rewrite Eo in Hn.
  enough (X0 : asks f = None) by (rewrite X0; reflexivity).
  unfold SpecEvm.asks. destruct (instruction _) as [i|]; [|reflexivity]. destruct (_ || _); [reflexivity|].
  destruct (code_at code (f_pc f)) as [|p|p]; [reflexivity| |reflexivity].
  repeat (destruct p as [p|p|]; try reflexivity); exfalso; vm_compute in Eo; injection Eo as <-; discriminate Hn.
Qed.

Lemma exec_one_trace ob l s f : obs_tr ob -> lrel ob l s f -> inv0 code f ->
  exists l' s', exec_one S E ob false l s = Ok (l', s') /\
    instr_effect msg (body_of f) (view (m_sh s)) (view (m_sh s')) /\
    match dispatch f with
    | Next f' => lrel ob l' s' f' /\ 0 <= f_pc f' <= zlen code + 32
    | out => is_running (l_state l') = false /\ ok (m_sh s')
    end.
Proof.
  intros Hob [L1 L2 L3 L4 L5 L6] I. pose proof (inv0_pc _ _ I) as Hpc.
  unfold exec_one, fetch. rewrite L2. cbn [make_env e_code]. rewrite padded_at by assumption.
  destruct (dispatch_entry _ (code_at_byte code (f_pc f) Hcode)) as (o & Eo & _). rewrite Eo.
  unfold deref_pc. cbn [rbind].
  destruct (ot_pre _ Hob o (mkOctx msg (l_cgas l) (l_ctop l) (m_buf s)) (m_sh s) (event_of code f) eq_refl Eo) as (sh1 & E1 & Hs1 & HX1).
  { intros hu. cbn [oc_buf oc_top oc_gas]. destruct (L6 hu) as [-> ->]. split; [exact L3|]. exists (f_stack f). split; [apply (rel_stack _ _ _ _ L5)|reflexivity]. }
  { apply (rel_sh _ _ _ _ L5). }
  change (e_msg E) with msg in *.
  rewrite E1. cbn [rbind].
  pose proof (rel_at (view sh1) _ _ _ (rel_set_sh ok _ _ _ sh1 L5 Hs1) eq_refl) as R1.
  destruct (run_op_sim S _ call _ _ msg rev code targets cache vd (sys_ok_at (view sh1) f) Hmsg Hcode Hcode_len Htl Htg Hvd
    false _ o (l_top l) f (set_sh sh1 s) eq_refl Eo R1 I) as (out & Hit & HW).
  { intros w0 m0 h. exact h. }
  set (okf := match asks f with Some _ => _ | None => _ end) in HW.
  assert (Hok : forall sh, okf sh -> ok sh /\ chain nested_effect (snd (body_of f)) (view sh1) (view sh)).
  { unfold okf, body_of. cbn [snd]. destruct (asks f) as [[w1 m1]|]; intros sh [A B]; (split; [exact A|]).
    - destruct B as (w & m & Ew & B). injection Ew as <- <-. exact B.
    - cbn [chain]. congruence. }
  assert (Hok1 : forall sh, okf sh -> ok sh) by (intros sh h; apply Hok; exact h).
  clearbody okf.
  rewrite L3, L4. unfold wp in HW. destruct (run_op S E false o (f_pc f) (f_gas f) (l_top l) (zlen (f_stack f)) (set_sh sh1 s)) as [[r s1]| |]; try contradiction.
  cbn [rbind]. rewrite Hstrict. cbn [andb].
  set (cgas := if ob_uses_context ob then r_gas r else l_cgas l).
  set (ctop := if ob_uses_context ob then l_top l - i_delta (op_kinfo o) else l_ctop l).
  assert (Hsh1 : okf (m_sh s1)).
  { unfold run_post in HW. destruct out as [f'|h data f'|e f'].
    - destruct HW as (_ & _ & _ & HR & _). apply (rel_sh _ _ _ _ HR).
    - destruct HW as (_ & _ & _ & _ & _ & HR). apply (rel_sh _ _ _ _ HR).
    - apply HW. }
  destruct (Hok _ Hsh1) as [Hsh2 HX2].
  destruct (ot_post _ Hob o (mkOctx msg cgas ctop (m_buf s1)) (m_sh s1) (event_of code f) eq_refl Eo Hsh2) as (sh2 & E2 & Hs2 & HX3).
  rewrite E2. cbn [rbind].
  assert (Ed : dispatch f = out) by (symmetry; exact Hit). rewrite Ed.
  eexists _, _. split; [reflexivity|]. split.
  { unfold instr_effect, body_of. split; [apply (asks_call f o Eo)|]. exists (view sh1), (view (m_sh s1)). split; [exact HX1|]. split; [exact HX2|exact HX3]. }
  unfold run_post in HW. destruct out as [f'|h data f'|e f'].
  - destruct HW as (H1 & H2 & H3 & H4 & H5). apply (rel_mono _ _ _ _ _ Hok1) in H4. split; [|exact H5]. split; cbn [l_state l_pc l_gas l_size l_top l_cgas l_ctop].
    + exact H1.
    + exact H2.
    + exact H3.
    + pose proof (rel_stack _ _ _ _ H4) as Q1. pose proof (rel_stack _ _ _ _ L5) as Q2.
      apply rep_top in Q1. apply rep_top in Q2. lia.
    + apply rel_set_sh; assumption.
    + intros hu. unfold cgas, ctop. rewrite hu. auto.
  - destruct HW as (H1 & _). cbn [l_state]. rewrite H1. split; [destruct h; reflexivity|exact Hs2].
  - destruct HW as (H1 & _). cbn [l_state]. rewrite H1. split; [destruct e; reflexivity|exact Hs2].
Qed.

Notation tree_body := (tree_body HH (s_keccak S)).

Lemma run_loop_trace ob : obs_tr ob -> forall fuel n l s f, lrel ob l s f -> inv0 code f -> vd = is_dest code ->
  (Z.to_nat (f_gas f) < fuel)%nat -> (Z.to_nat (f_gas f) < n)%nat ->
  exists l' s', run_loop S E ob fuel l s = Ok (l', s') /\ ok (m_sh s') /\
    chain (instr_effect msg) (tree_body call trees rev code msg n f) (view (m_sh s)) (view (m_sh s')).
Proof.
  intros Hob. induction fuel as [|fuel IH]; intros n l s f L I Evd Hf Hn; [lia|].
  destruct n as [|n]; [lia|].
  cbn [run_loop SpecVm.tree_body]. rewrite (lr_state _ _ _ _ _ L). cbn [is_running].
  destruct (exec_one_trace ob l s f Hob L I) as (l' & s' & E1 & HX & HP). rewrite E1. cbn [rbind].
  rewrite <- Evd. fold (body_of f).
  destruct (dispatch f) as [f'|h d f'|e f'] eqn:Ed.
  - destruct HP as [L' Hpc].
    assert (Hit : iteration S call msg rev code vd false f (Next f')) by (symmetry; exact Ed).
    assert (HS : sys_ok S ok call (fun _ _ _ => True) ok (msg_depth msg)).
    { split; try assumption.
      - intros w sh m H1 _ G1 G2 G3. destruct (Hcall w sh m H1 G1 G2 G3) as (sh' & A & B & _). eauto.
      - intros sh bs H1 Hb. destruct (Hhash sh bs H1 Hb) as (sh' & A & B & _). eauto. }
    destruct (iteration_next S ok call _ _ msg rev code vd HS Hmsg Hcode Hvd
       false f f' s s' _ _ Hit (lr_rel _ _ _ _ _ L) (lr_rel _ _ _ _ _ L') I Hpc) as [I' D].
    pose proof (dec_gas _ _ _ D).
    destruct (IH n l' s' f' L' I' Evd) as (l2 & s2 & E2 & O2 & HC); [lia|lia|].
    exists l2, s2. split; [exact E2|]. split; [exact O2|]. cbn [chain]. exists (view (m_sh s')). split; [exact HX|exact HC].
  - destruct HP as [Hnr Ho]. exists l', s'. split; [destruct fuel; cbn [run_loop]; rewrite Hnr; reflexivity|].
    split; [exact Ho|]. cbn [chain]. eexists. split; [exact HX|reflexivity].
  - destruct HP as [Hnr Ho]. exists l', s'. split; [destruct fuel; cbn [run_loop]; rewrite Hnr; reflexivity|].
    split; [exact Ho|]. cbn [chain]. eexists. split; [exact HX|reflexivity].
Qed.

Theorem interpret_trace ob fuel n buf w sh : obs_tr ob -> zlen buf = 1024 -> ok sh -> vd = is_dest code ->
  (Z.to_nat (msg_gas msg) < fuel)%nat -> (Z.to_nat (msg_gas msg) < n)%nat ->
  exists r w' sh', interpret S E ob fuel buf w sh = Ok (r, w', sh') /\ ok sh' /\
    effect (Tree msg (tree_body call trees rev code msg n (initial msg w))) (view sh) (view sh').
Proof.
  intros Hob Hbuf Hsh Evd Hf Hn. unfold interpret. change (e_msg E) with msg.
  destruct (ot_pre_run _ Hob sh Hsh) as (sh1 & E1 & Hs1 & HX1). rewrite E1. cbn [rbind].
  edestruct (run_loop_trace ob Hob fuel n (mkL kRunning (Some 0) (msg_gas msg) kStackSize 0 (msg_gas msg) kStackSize)
    (mkMst buf [] [] 0 w sh1) (initial msg w)) as (l' & s' & E2 & O2 & HC).
  - split; cbn; try reflexivity.
    + split; cbn; auto; try (constructor; fail); try lia.
      * split; [assumption|unfold kStackSize; lia|reflexivity|]. intros i v Hv. rewrite znth_nil in Hv. discriminate.
      * apply mem_rel_empty.
    + auto.
  - pose proof (mok_gas _ Hmsg). pose proof (zlen_nonneg code).
    split; cbn [initial f_gas f_active f_refund f_pc]; try lia; change (Gmem 0) with 0; lia.
  - exact Evd.
  - exact Hf.
  - exact Hn.
  - rewrite E2. cbn [rbind]. destruct (epilogue false 0 l' s') as [c s2] eqn:Ee.
    assert (Hsm : m_sh s2 = m_sh s').
    { unfold epilogue in Ee. injection Ee as _ <-. destruct (l_state l'); reflexivity. }
    rewrite Hsm. destruct (ot_post_run _ Hob (m_sh s') O2) as (sh2 & E3 & Hs2 & HX2). rewrite E3. cbn [rbind].
    eexists _, _, _. split; [reflexivity|]. split; [exact Hs2|]. cbn [Trace.effect]. cbn [m_sh] in HC.
    exists (view sh1), (view (m_sh s')). split; [exact HX1|]. split; [exact HC|exact HX2].
Qed.
End Trace.
