(** Complete runs of the Go interpreter follow the reference semantics (codes of up to 65536 bytes). *)
From Verif Require Sim.
From Verif Require Import Base Host Uint256 SpecEvm SpecCall SpecVm ArithFacts MemFacts JumpFacts SpecFacts FrameFacts StepFacts VmFacts GoAdapter LfvmCode Lfvm LfvmSim LfvmOps LfvmConv LfvmExec LfvmStep LfvmSuper.
From Coq Require Import Lia ZArith List Bool.
Import ListNotations.
Open Scope Z_scope.

Section Run.
Context {W : Type}.
Variable rc : run_context W.
Variable tx : tx_context.
Variable Call : W -> go_kind -> call_params -> option call_result * W.
Variable keccak : list Z -> Z.
Variable p : parameters.
Variable super : bool.
Variable lc : lcode.
Variable rv : revision.
Hypothesis Hrev : toEvmcRevision (p_revision p) = Some rv.
Hypothesis Hhost : host_ok (go_host rc tx).
Hypothesis Htx : tx_ok tx.
Hypothesis Hmsg : msg_ok (message_of p).
Hypothesis Hkeccak : forall d, is_word (keccak d).
Hypothesis Hcode : Forall is_byte (p_code p).
Hypothesis Hsize : zlen (p_code p) <= 65536.
Hypothesis Hloc : located super (p_code p) lc 0 0.
Hypothesis Hsst : forall w a k v w1 st w2, rc_access_storage rc w a k = (COLD, w1) -> rc_set_storage rc w1 a k v = (st, w2) ->
  st <> S_DELETED_RESTORED /\ st <> S_MODIFIED_RESTORED.
Hypothesis Hcodes : forall w a, zlen (rc_code rc w a) < 2 ^ 63.
Hypothesis Hacc : forall w a st w1, rc_access_account rc w a = (st, w1) -> forall b, is_empty rc w1 b = is_empty rc w b /\ rc_balance rc w1 b = rc_balance rc w b.
Hypothesis Hcalls : calls_ok (callF Call) (p_depth p).
Hypothesis Hdepth : p_depth p <= 1024.
Notation H := (go_host rc tx).
Notation msg := (message_of p).
Notation code := (p_code p).
Notation frame := (frame W).
Notation ctx := (ctx W).
Notation step := (SpecEvm.step H (callF Call) keccak msg rv code (is_dest code)).
Notation run_for := (SpecEvm.run_for H (callF Call) keccak msg rv code (is_dest code)).
Notation lstep := (lstep rc tx Call keccak p lc).
Notation lsteps := (lsteps rc tx Call keccak p lc).
Notation at_pos := (at_pos p super lc).
Notation ready := (ready p super lc).
Notation narrow := (narrow (W:=W) p).

Lemma step_height (f f' : frame) : step f = Next f' -> zlen (f_stack f') <= 1024.
Proof.
  unfold SpecEvm.step. destruct (instruction (code_at code (f_pc f))) as [i|] eqn:ei; [|destruct (_ <? 0); discriminate].
  destruct (negb _); [discriminate|]. destruct (_ && _); [discriminate|]. destruct (Z.ltb_spec (zlen (f_stack f)) (in_args i)) as [h1|h1]; [discriminate|].
  destruct (Z.ltb_spec 1024 (zlen (f_stack f) - in_args i + in_results i)) as [h2|h2]; [discriminate|]. unfold charge. destruct (_ <? _); [discriminate|].
  intros e. assert (hb : is_byte (code_at code (f_pc f))) by (apply code_at_byte; exact Hcode).
  set (f1 := with_gas (f_gas f - in_fee i) f) in *.
  pose proof (exec_effect H (callF Call) keccak msg rv code (is_dest code) _ i f1 hb ei) as X.
  cbn [f_stack f1 with_gas] in X. specialize (X ltac:(lia)). rewrite e in X. destruct X as [X _]. cbn [f_stack f1 with_gas] in X. lia.
Qed.

Lemma step_fine (f f' : frame) c : R f c -> fine f -> step f = Next f' -> fine f' /\ f_gas f' < f_gas f.
Proof.
  intros hR hF e. pose proof (R_sane _ _ hR hF) as hs. pose proof (step_good H (callF Call) keccak msg rv code (is_dest code) Hmsg Hcalls f Hcode hs) as G.
  rewrite e in G. destruct G as [d1 d2 d3 d4], hF as [g1 g2 g3]. split; [|lia]. split; lia.
Qed.

Lemma runs_fine k : forall (f f' : frame), (exists c, R f c) -> fine f -> zlen (f_stack f) <= 1024 -> (exists pre l j, walk code (f_pc f) (pre ++ [l]) j /\ forallb simple pre = true /\ k = length (pre ++ [l])) -> run_for k f = Next f' ->
  fine f' /\ f_gas f' < f_gas f /\ zlen (f_stack f') <= 1024.
Proof.
  intros f f' [c hR] hF hst (pre & l & j & hw & hs & ->) e. rewrite app_length in e. rewrite run_for_app in e. pose proof hF as [g1 g2 g3].
  destruct (walk_split p pre l _ _ hw) as (i' & hw1 & _ & _).
  pose proof (simple_run rc tx Call keccak p rv Hrev pre f i' hs hw1 g1) as X. pose proof (simple_fees pre hs) as hfp.
  destruct (fits pre (zlen (f_stack f)) && (fees pre <=? f_gas f)) eqn:ef; [|destruct X as (e1 & f1 & X); rewrite X in e; discriminate]. rewrite X in e.
  apply andb_prop in ef. destruct ef as [ef1 ef2]. apply Z.leb_le in ef2. cbn [length SpecEvm.run_for] in e.
  destruct (effects_word p Hcode pre (f_pc f) (f_stack f) hs ef1 (r_words _ _ hR)) as [ew _].
  set (fm := with_pc i' (with_gas (f_gas f - fees pre) (with_stack (effects code pre (f_pc f) (f_stack f)) f))) in *.
  assert (hRm : R fm (set_stack (effects code pre (f_pc f) (f_stack f)) (set_gas (f_gas f - fees pre) c))) by (apply (R_at (with_gas (f_gas f - fees pre) f)); [apply R_gas; exact hR|exact ew]).
  assert (hFm : fine fm) by (destruct (fine_gas f (f_gas f - fees pre) hF ltac:(lia)) as [y1 y2 y3]; split; assumption).
  destruct (step fm) as [f1|h out f1|e1 f1] eqn:es; try discriminate. injection e as <-.
  destruct (step_fine fm f1 _ hRm hFm es) as [k1 k2]. split; [exact k1|]. split; [|exact (step_height fm f1 es)]. cbn [fm f_gas with_pc with_gas with_stack] in k2. lia.
Qed.
(** the frames an execution goes through *)
Definition passes (f f' : frame) : Prop := exists k, run_for k f = Next f'.
Lemma passes_trans f f1 f2 : passes f f1 -> passes f1 f2 -> passes f f2.
Proof. intros [a ha] [b hb]. exists (a + b)%nat. rewrite run_for_app, ha. exact hb. Qed.

Lemma round (f : frame) (c : ctx) : R f c -> fine f -> zlen (f_stack f) <= 1024 -> ready (f_pc f) (c_pc c) -> (super = true -> narrow f) ->
  exists k, (super = false -> k = 1%nat) /\ out_ok at_pos (run_for k f) (lstep c) /\ forall f', run_for k f = Next f' -> fine f' /\ f_gas f' < f_gas f /\ zlen (f_stack f') <= 1024.
Proof.
  intros hR hF hst hr hn.
  assert (plain : (f_pc f < zlen code -> grouped super code (f_pc f) = None) -> exists k, (super = false -> k = 1%nat) /\ out_ok at_pos (run_for k f) (lstep c) /\ forall f', run_for k f = Next f' -> fine f' /\ f_gas f' < f_gas f /\ zlen (f_stack f') <= 1024).
  { intros hg. exists 1%nat. split; [reflexivity|]. cbn [SpecEvm.run_for]. assert (s1 : forall o : outcome W, match o with Next f1 => Next f1 | Halt h d f1 => Halt h d f1 | Fail e f1 => Fail e f1 end = o) by (intros []; reflexivity). rewrite s1. split.
    - exact (step_sim rc tx Call keccak p super lc rv Hrev Hhost Htx Hmsg Hkeccak Hcode Hsize Hloc Hsst Hcodes Hacc Hcalls Hdepth f c hR hF hst hr hg).
    - intros f' es. destruct (step_fine f f' c hR hF es) as [k1 k2]. split; [exact k1|]. split; [exact k2|exact (step_height f f' es)]. }
  destruct (Z_lt_ge_dec (f_pc f) (zlen code)) as [hin|hout]; [|apply plain; lia].
  destruct (grouped super code (f_pc f)) as [[e n]|] eqn:eg; [|apply plain; intros _; reflexivity].
  assert (hi : 0 <= f_pc f) by (destruct hr as [hr|[hr _]]; [destruct hr as (_ & _ & _ & hz & hl1); unfold znth in hz; destruct (Z.ltb_spec (f_pc f) 0); [discriminate|assumption]|exact (lo_i _ _ _ _ _ hr)]).
  pose proof (grouped_group super code (f_pc f) e n ltac:(lia) eg) as hgr.
  destruct (group_walk code _ _ _ hgr) as (op & a & t & _ & _ & _ & _ & _ & _ & hne).
  destruct hr as [(_ & _ & hd & _)|[hl _]]; [contradiction|].
  destruct (located_super super code lc (f_pc f) (c_pc c) e n hl hin eg) as (k1 & k2 & k3).
  assert (hs : super = true) by (destruct super; [reflexivity|discriminate eg]).
  destruct (group_sim rc tx Call keccak p super lc rv Hrev Hcode Hsize Hloc f c e n hR hF hst hl hgr k1 k3 (hn hs)) as (k & hk & ho).
  exists k. split; [rewrite hs; discriminate|]. split; [exact ho|]. intros f' ef. exact (runs_fine k f f' (ex_intro _ c hR) hF hst hk ef).
Qed.

Lemma run_agree n : forall (f : frame) (c : ctx) m, R f c -> fine f -> zlen (f_stack f) <= 1024 -> at_pos (f_pc f) (c_pc c) -> (super = true -> forall f', passes f f' -> narrow f') -> (Z.to_nat (f_gas f) < n)%nat -> (2 * n <= m)%nat ->
  exists k, (super = false -> (k <= n)%nat) /\ match run_for k f with Next _ => False | o => out_ok (fun _ _ => True) o (lsteps m c) end.
Proof.
  induction n as [|n IH]; intros f c m hR hF hst hpos hnw hn hm; [lia|].
  assert (main : forall c m, R f c -> ready (f_pc f) (c_pc c) -> (2 * n + 1 <= m)%nat -> exists k, (super = false -> (k <= S n)%nat) /\ match run_for k f with Next _ => False | o => out_ok (fun _ _ => True) o (lsteps m c) end).
  { clear c m hR hpos hm. intros c m hR hr hm. destruct m as [|m]; [lia|].
    destruct (round f c hR hF hst hr (fun h => hnw h f (ex_intro _ 0%nat eq_refl))) as (k & hk & X & Y).
    cbn [Lfvm.lsteps]. destruct (run_for k f) as [f'|h out f'|e f'] eqn:es; cbn [out_ok] in X.
    - destruct X as (c' & -> & hR' & hp'). destruct (Y f' eq_refl) as (hF' & hlt & hst'). destruct hF' as [g1 g2 g3].
      destruct (IH f' c' m hR' ltac:(split; assumption) hst' hp') as (k' & hk' & Z1); [|lia|lia|].
      + intros h f2 hf2. apply (hnw h). exact (passes_trans f f' f2 (ex_intro _ k es) hf2).
      + exists (k + k')%nat. split; [intros h0; specialize (hk h0); specialize (hk' h0); lia|]. rewrite run_for_app, es. exact Z1.
    - exists k. split; [intros h0; specialize (hk h0); lia|]. rewrite es. destruct X as (s & c' & -> & X). cbn [out_ok]. exists s, c'. split; [reflexivity|exact X].
    - exists k. split; [intros h0; specialize (hk h0); lia|]. rewrite es. destruct X as (c' & ->). exists c'. reflexivity. }
  destruct (settle rc tx Call keccak p super lc Hsize f c hR hF hst hpos) as [hr|(c' & e & hR' & hr)].
  - apply main; [exact hR|exact hr|lia].
  - destruct m as [|m]; [lia|]. destruct (main c' m hR' hr ltac:(lia)) as (k & hk & Z1). exists k. split; [exact hk|]. cbn [Lfvm.lsteps]. rewrite e. exact Z1.
Qed.

Hypothesis Hgas : 0 <= p_gas p.
Notation start w := (mkCtx 0 (p_gas p) 0 [] [] 0 [] w).
Lemma start_R (w : W) : R (initial msg w) (start w).
Proof.
  split; cbn [c_gas c_refund c_stack c_ret c_world c_store c_cost initial f_gas f_refund f_stack f_ret f_world f_active f_mem]; try reflexivity; try constructor; try exact (Forall_nil _).
  intros a ha. rewrite data_at_out by (cbn; lia). reflexivity.
Qed.
Lemma start_fine (w : W) : fine (initial msg w : frame).
Proof.
  assert (h : p_gas p < 2 ^ 54) by (exact (proj2 (mok_gas _ Hmsg))).
  split; cbn [initial f_gas f_active f_refund message_of msg_gas].
  - exact Hgas.
  - change (Gmem 0) with 0. lia.
  - change (Z.abs 0) with 0. lia.
Qed.

Lemma lrun_steps (w : W) : lrun rc tx Call keccak p lc w = do! o <- lsteps (run_fuel p) (start w); Ok (generateResult o, world_of o).
Proof.
  unfold lrun. destruct (Z.eqb_spec (zlen lc) 0) as [h|h]; [|reflexivity].
  unfold run_fuel. replace (2 * p_gas p + 4) with (Z.succ (2 * p_gas p + 3)) by lia. rewrite Z2Nat.inj_succ by lia.
  cbn [Lfvm.lsteps]. unfold Lfvm.lstep. cbn [c_pc]. rewrite h. reflexivity.
Qed.

(** what [Run] reports for an outcome of the reference *)
Definition report (o : outcome W) : go_result :=
  match o with
  | Halt Reverted out f => mkGo false out (f_gas f) 0
  | Halt _ out f => mkGo true out (f_gas f) (f_refund f)
  | Fail _ _ | Next _ => mkGo false [] 0 0
  end.
Lemma lrun_ok (w : W) : (super = true -> forall f', passes (initial msg w) f' -> narrow f') ->
  exists k w', (super = false -> (k <= S (Z.to_nat (p_gas p)))%nat) /\ lrun rc tx Call keccak p lc w = Ok (report (run_for k (initial msg w)), w') /\
  match run_for k (initial msg w) with Halt _ _ f => w' = f_world f | Fail _ _ => True | Next _ => False end.
Proof.
  intros hnw. pose proof (run_agree (S (Z.to_nat (p_gas p))) (initial msg w) (start w) (run_fuel p) (start_R w) (start_fine w) ltac:(cbn; lia) (or_introl Hloc) hnw) as X.
  destruct (X ltac:(cbn [initial f_gas message_of msg_gas]; lia) ltac:(unfold run_fuel; lia)) as (k & hk & Y). clear X. rewrite lrun_steps. exists k.
  destruct (run_for _ _) as [f|h out f|e f]; [contradiction| |].
  - destruct Y as (s & c & -> & he & hg & hr & hw). exists (f_world f). split; [exact hk|]. cbn [rbind world_of]. rewrite hw. split; [|reflexivity]. f_equal. f_equal.
    destruct h; cbn [ends] in he; [destruct he as [[-> | ->] ->]|destruct he as [-> <-]|destruct he as [-> <-]]; cbn [generateResult report]; rewrite ?hg, ?hr; reflexivity.
  - destruct Y as (c & ->). exists (c_world c). split; [exact hk|]. split; reflexivity.
Qed.
Lemma final_same a b (f : frame) : match run_for a f with Next _ => False | _ => True end -> match run_for b f with Next _ => False | _ => True end -> run_for a f = run_for b f.
Proof.
  assert (mono : forall k (f : frame), match run_for k f with Next _ => False | _ => True end -> forall n, (k <= n)%nat -> run_for n f = run_for k f).
  { clear. induction k as [|k ih]; intros f h n hn; [contradiction|]. destruct n as [|n]; [lia|]. cbn [SpecEvm.run_for] in *. destruct (step f); try reflexivity. apply ih; [exact h|lia]. }
  intros ha hb. destruct (Nat.le_ge_cases a b) as [h|h]; [symmetry|]; apply mono; assumption.
Qed.
End Run.

(** ** Run *)
From Verif Require Import SpecLfvm Vm Client ClientFacts RunInv ReasonFacts.
Section Whole.
Context {W : Type}.
Variable rc : run_context W.
Variable tx : tx_context.
Variable Call : W -> go_kind -> call_params -> option call_result * W.
Variable keccak : list Z -> Z.

Lemma revisions_toEvmc r rv : In (r, rv) revisions <-> toEvmcRevision r = Some rv.
Proof.
  unfold revisions. split.
  - intros h. cbn in h. repeat (destruct h as [h|h]; [injection h as <- <-; reflexivity|]). contradiction.
  - unfold toEvmcRevision. intros h. destruct r as [|r|r]; try discriminate; [injection h as <-; left; reflexivity|].
    do 3 (try match goal with r : positive |- _ => destruct r; try discriminate end); injection h as <-; cbn; tauto.
Qed.

Lemma evaluate_ends p rv w : env_ok rc tx Call keccak (p_depth p) -> run_ok p -> In (p_revision p, rv) revisions ->
  match SpecEvm.run_for (go_host rc tx) (answers Call) keccak (message_of p) rv (p_code p) (is_dest (p_code p)) (S (Z.to_nat (p_gas p))) (initial (message_of p) w) with Next _ => False | _ => True end.
Proof.
  intros [e1 e2 e3 e4 e5 e6 e7] [p1 p2 p3 p4 p5] hrev. apply revisions_toEvmc in hrev.
  destruct (convert_total false (p_code p) p4 p5) as (lc & ec & hl).
  destruct (lrun_ok rc tx Call keccak p false lc rv hrev e1 e2 p1 e3 p4 p5 hl e7 e4 e6 e5 p3 p2 w ltac:(discriminate)) as (k & w' & hk & _ & hw). specialize (hk eq_refl).
  change (answers Call) with (callF Call). replace (S (Z.to_nat (p_gas p))) with (k + (S (Z.to_nat (p_gas p)) - k))%nat by lia. rewrite run_for_app.
  destruct (SpecEvm.run_for _ _ _ _ _ _ _ k _); [contradiction|exact Logic.I|exact Logic.I].
Qed.
Theorem lfvm_super super p rv w : env_ok rc tx Call keccak (p_depth p) -> run_ok p -> In (p_revision p, rv) revisions ->
  (super = true -> returns_in_range (go_host rc tx) keccak (answers Call) w rv (p_code p) (message_of p)) ->
  let e := evaluate (go_host rc tx) keccak (answers Call) w rv (p_code p) (message_of p) in
  exists w', LfvmRun rc tx Call keccak super w p = Ok (inl (expected (fst e)), w') /\ (unfailed (fst e) -> w' = snd e).
Proof.
  intros henv hp hrev hnw. pose proof (evaluate_ends p rv w henv hp hrev) as hend. destruct henv as [e1 e2 e3 e4 e5 e6 e7], hp as [p1 p2 p3 p4 p5]. apply revisions_toEvmc in hrev.
  assert (h5 : (5 <? p_revision p) = false).
  { apply revisions_toEvmc in hrev. unfold revisions in hrev. cbn in hrev. repeat (destruct hrev as [hrev|hrev]; [injection hrev as <- _; reflexivity|]). contradiction. }
  destruct (convert_total super (p_code p) p4 p5) as (lc & ec & hl).
  destruct (lrun_ok rc tx Call keccak p super lc rv hrev e1 e2 p1 e3 p4 p5 hl e7 e4 e6 e5 p3 p2 w) as (k & w' & _ & er & hw).
  { intros hs f' [n hn]. exact (hnw hs n f' hn). }
  assert (hk : match SpecEvm.run_for (go_host rc tx) (callF Call) keccak (message_of p) rv (p_code p) (is_dest (p_code p)) k (initial (message_of p) w) with Next _ => False | _ => True end).
  { destruct (SpecEvm.run_for _ _ _ _ _ _ _ k _); [exact hw|exact Logic.I|exact Logic.I]. }
  unfold LfvmRun. rewrite h5, ec. cbn [rbind]. rewrite er. cbn [rbind]. cbv zeta. unfold evaluate.
  change (msg_gas (message_of p)) with (p_gas p). change (SpecEvm.run_for (go_host rc tx) (answers Call)) with (SpecEvm.run_for (go_host rc tx) (callF Call)) in *.
  rewrite (final_same rc tx Call keccak p rv k (S (Z.to_nat (p_gas p))) _ hk hend) in *. clear hk hend.
  exists w'. destruct (run_for _ _ _ _ _ _ _ _) as [f|h out f|e f]; [contradiction| |].
  - subst w'. split; [|intros _; reflexivity]. destruct h; reflexivity.
  - split; [|intros [X|X]; destruct e; discriminate X]. destruct e; reflexivity.
Qed.
Theorem lfvm_run p rv w : env_ok rc tx Call keccak (p_depth p) -> run_ok p -> In (p_revision p, rv) revisions ->
  let e := evaluate (go_host rc tx) keccak (answers Call) w rv (p_code p) (message_of p) in
  exists w', LfvmRun rc tx Call keccak false w p = Ok (inl (expected (fst e)), w') /\ (unfailed (fst e) -> w' = snd e).
Proof. intros h1 h2 h3. apply (lfvm_super false p rv w h1 h2 h3). discriminate. Qed.

Lemma evaluate_ext (H : host W) call1 call2 w rv code m : (forall w m, call1 w m = call2 w m) ->
  evaluate H keccak call1 w rv code m = evaluate H keccak call2 w rv code m.
Proof.
  intros h. unfold evaluate. f_equal. generalize (S (Z.to_nat (msg_gas m))). intros n. generalize (initial m w). induction n as [|n ih]; intros f; [reflexivity|].
  cbn [SpecEvm.run_for]. rewrite (step_ext H keccak m rv code (is_dest code) call1 call2 f) by (intros; apply h).
  destruct (SpecEvm.step _ _ _ _ _ _ _ f); try reflexivity. apply ih.
Qed.

Lemma no_depth_failure (H : host W) call m rv code : Forall is_byte code -> msg_depth m <= 1024 -> forall n f0 e f,
  run_for H call keccak m rv code (is_dest code) n f0 = Fail e f -> e <> CallDepth.
Proof.
  intros hc hd. induction n as [|n ih]; intros f0 e f; [discriminate|]. cbn [SpecEvm.run_for].
  destruct (SpecEvm.step H call keccak m rv code (is_dest code) f0) as [f1|h out f1|e1 f1] eqn:es; [apply ih|discriminate|]. intros X. injection X as <- _. revert es.
  unfold SpecEvm.step. destruct (instruction (code_at code (f_pc f0))) as [i|] eqn:ei; [|destruct (_ <? 0); intros X; injection X as <- _; discriminate].
  destruct (negb _); [intros X; injection X as <- _; discriminate|]. destruct (_ && _); [intros X; injection X as <- _; discriminate|].
  destruct (Z.ltb_spec (zlen (f_stack f0)) (in_args i)) as [h1|h1]; [intros X; injection X as <- _; discriminate|].
  destruct (_ <? _); [intros X; injection X as <- _; discriminate|]. unfold charge. destruct (_ <? _); [intros X; injection X as <- _; discriminate|].
  intros es ->. pose proof (exec_reason H call keccak m rv code (is_dest code) (code_at code (f_pc f0)) i (with_gas (f_gas f0 - in_fee i) f0) (code_at_byte _ _ hc) ei h1) as R1.
  rewrite es in R1. cbn [reason why] in R1. lia.
Qed.

(** both interpreters, with the same run context *)
Definition without_refund (r : go_result) : go_result := if go_success r then r else mkGo false (go_output r) (go_gas_left r) 0.
Theorem lfvm_evmzero g v p rv w : setting_ok g -> g_host g = go_host rc tx -> g_keccak g = keccak -> (forall w m, nested g w m = answers Call w m) ->
  reach g v -> exec_ok (g_code_of g) (p_code p) (message_of p) -> env_ok rc tx Call keccak (p_depth p) -> run_ok p -> In (p_revision p, rv) revisions ->
  exists o w1 v' r w2, Run g v w p = Ok (o, w1, v') /\ LfvmRun rc tx Call keccak false w p = Ok (inl r, w2) /\
    match o with
    | inl r1 => r = without_refund r1 /\ (go_success r1 = true -> w2 = w1)
    | inr e => e = ErrUnexpected EVMC_FAILURE /\ r = mkGo false [] 0 0
    end.
Proof.
  intros hg eh ek hn hr he henv hp hrev. destruct (lfvm_run p rv w henv hp hrev) as (w' & el & hw).
  destruct (execute_reference g hg v w rv (p_code p) (message_of p) hr he) as (v' & ex & _).
  assert (er : reference g w rv (p_code p) (message_of p) = evaluate (go_host rc tx) keccak (answers Call) w rv (p_code p) (message_of p)).
  { rewrite reference_eq. unfold ref_run. fold (evaluate (g_host g) (g_keccak g) (nested g) w rv (p_code p) (message_of p)). rewrite eh, ek. apply evaluate_ext. exact hn. }
  assert (h5 : (5 <? p_revision p) = false).
  { unfold revisions in hrev. cbn in hrev. repeat (destruct hrev as [hrev|hrev]; [injection hrev as <- _; reflexivity|]). contradiction. }
  pose proof (proj1 (revisions_toEvmc _ _) hrev) as hrv.
  exists (go_result_of (fst (reference g w rv (p_code p) (message_of p)))), (snd (reference g w rv (p_code p) (message_of p))), v', (expected (fst (reference g w rv (p_code p) (message_of p)))), w'.
  rewrite er in *. unfold Run. rewrite h5, hrv, ex. cbn [rbind]. split; [reflexivity|]. split; [exact el|].
  revert hw. unfold evaluate. change (msg_gas (message_of p)) with (p_gas p).
  assert (hnd : forall e f, run_for (go_host rc tx) (answers Call) keccak (message_of p) rv (p_code p) (is_dest (p_code p)) (S (Z.to_nat (p_gas p))) (initial (message_of p) w) = Fail e f -> e <> CallDepth).
  { intros e f. apply no_depth_failure; [exact (par_code _ hp)|exact (par_depth _ hp)]. }
  destruct (run_for _ _ _ _ _ _ _ _) as [f|h out f|e f]; intros hw.
  - split; reflexivity.
  - destruct h; cbn in hw |- *; (split; [reflexivity|intros X; try discriminate X; apply hw; auto]).
    left; reflexivity. left; reflexivity.
  - specialize (hnd e f eq_refl). destruct e; try congruence; cbn; split; try reflexivity; discriminate.
Qed.
End Whole.

(** ** Conversion *)
Theorem conversion_ok super code : Forall is_byte code -> zlen code <= 65536 ->
  exists lc, convert super code = Ok lc /\ forall d, 0 <= d -> (exists a, znth lc d = Some (0x5B, a)) <-> jumpdest code d.
Proof.
  intros hc hs. destruct (convert_total super code hc hs) as (lc & ec & hl). exists lc. split; [exact ec|]. intros d hd.
  split; intros h.
  - destruct h as [a h]. apply (proj1 (dest_iff super code lc hs d a hl hd)). apply slice_one; assumption.
  - exists 0. pose proof (proj2 (dest_iff super code lc hs d 0 hl hd) h) as X. apply (slice_znth lc d 1 _ [] hd X).
Qed.
(** ** Tables *)
Theorem fees_ok r rv b ins : In (r, rv) revisions -> is_byte b -> instruction b = Some ins ->
  staticGasPrice r b = in_fee ins + (if r =? 0 then if b =? 0x54 then 800 else if existsb (Z.eqb b) [0x31; 0x3B; 0x3C; 0x3F; 0xF1; 0xF2; 0xF4; 0xFA] then 700 else 0 else 0).
Proof.
  intros hr hb he. pose (p := mkParams r false 0 0 0 0 [] 0 None []).
  pose proof (price_ok p rv (proj1 (revisions_toEvmc r rv) hr) b ins hb he) as X. cbn [p p_revision] in X. rewrite X. f_equal. unfold price_of.
  unfold revisions in hr. cbn in hr. repeat (destruct hr as [hr|hr]; [injection hr as <- <-; reflexivity|]). contradiction.
Qed.
