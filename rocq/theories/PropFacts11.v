(** Logs and profiles of executions: facts behind PropsObs. *)
From Verif Require Import Base Host Memory Opcodes SpecEvm SpecTrace SpecVm SimBase Profiler ProfilerFacts Vm VmFacts Trace SpecStep Client ClientFacts
  SpecObs TraceVm TraceFacts Toy PropFacts PropFacts6 StepFacts PropFacts8.
From Coq Require Import Lia ZArith List Bool String.
Import ListNotations.
Local Open Scope list_scope.

Section Obs.
Context {W : Type}.
Variable g : setting W.
Hypothesis Hg : setting_ok g.

Lemma observed_run v w rv code m : reach g v -> exec_ok (g_code_of g) code m ->
  exists r w' v', Execute g v w rv code m = Ok (r, w', v') /\ flags v' = flags v /\ reach g v' /\
    k_effect (g_tick g) (kind_of (flags v)) (runs_of g w rv code m) (view v) (view v').
Proof.
  intros Hr He. destruct Hg as [G1 G2 G3 G4].
  destruct (exec_trace (g_host g) (g_keccak g) (g_tick g) (g_bufs g) (g_handler g) (g_code_of g) G1 G2 G3 G4 (flags v) (S levels) v w rv code m)
    as (r & w' & v' & E & [_ F] & X).
  - split; [exact (reach_ok g Hg v Hr)|reflexivity].
  - exact He.
  - pose proof (mok_depth _ (eok_msg _ _ _ He)). pose proof levels_ok. lia.
  - exists r, w', v'. split; [exact E|]. split; [exact F|]. split; [|exact X]. eapply reach_execute; eassumption.
Qed.

Lemma log_lines v w rv code m : reach g v -> exec_ok (g_code_of g) code m -> v_logging v = true ->
  exists r w' v' lines, Execute g v w rv code m = Ok (r, w', v') /\ v_log v' = v_log v ++ lines /\
    Forall2 shows_line lines (flat (runs_of g w rv code m)).
Proof.
  intros Hr He Hl. destruct (observed_run v w rv code m Hr He) as (r & w' & v' & E & _ & _ & X).
  unfold flags, kind_of in X. rewrite Hl in X. apply log_effect in X.
  exists r, w', v', (map line_of (flat (runs_of g w rv code m))). split; [exact E|].
  split; [exact (f_equal x_log X)|]. clear. induction (flat (runs_of g w rv code m)) as [|e l IH]; constructor; [|exact IH].
  unfold shows_line, line_of. cbn [ln_op ln_gas ln_top]. rewrite op_shown. auto.
Qed.
Lemma log_silent v w rv code m : reach g v -> exec_ok (g_code_of g) code m -> v_logging v = false ->
  exists r w' v', Execute g v w rv code m = Ok (r, w', v') /\ v_log v' = v_log v.
Proof.
  intros Hr He Hl. destruct (observed_run v w rv code m Hr He) as (r & w' & v' & E & _ & _ & X).
  exists r, w', v'. split; [exact E|]. unfold flags, kind_of in X. rewrite Hl in X.
  destruct (v_profiling v); [|destruct (v_profext v)].
  - apply prof_effect in X as (p & _ & X). exact (f_equal x_log X).
  - apply prof_effect in X as (p & _ & X). exact (f_equal x_log X).
  - apply none_effect in X. exact (f_equal x_log X).
Qed.

Lemma profile_of mode v : profiles mode v -> dump_profile v = Some (pr_profile (x_get mode (view v))) /\ kind_of (flags v) = KProf mode.
Proof.
  unfold profiles, dump_profile, kind_of, flags. destruct mode; intros [-> h].
  - rewrite h. auto.
  - destruct h as [-> ->]. auto.
Qed.

Lemma profile_run mode v w rv code m : clock_range (g_tick g) -> reach g v -> exec_ok (g_code_of g) code m -> profiles mode v ->
  exists r w' v' p p', Execute g v w rv code m = Ok (r, w', v') /\ reach g v' /\ profiles mode v' /\
    dump_profile v = Some p /\ dump_profile v' = Some p' /\
    let t := runs_of g w rv code m in
    (forall b, pf_calls p' b mod 2 ^ 64 = (pf_calls p b + executions mode b t) mod 2 ^ 64) /\
    (forall b, pf_ticks p' b mod 2 ^ 64 = (pf_ticks p b + time_in (g_tick g) mode b t (v_time v)) mod 2 ^ 64) /\
    (msg_depth m <> 0 -> pf_icalls p' = pf_icalls p /\ pf_iticks p' = pf_iticks p) /\
    (msg_depth m = 0 -> pf_icalls p' = (pf_icalls p + 1) mod 2 ^ 64 /\
       pf_iticks p' = (pf_iticks p + duration (g_tick g) t (v_time v) mod 2 ^ 64) mod 2 ^ 64) /\
    v_time v' = readings (g_tick g) t (v_time v).
Proof.
  intros Hc Hr He Hp. destruct (observed_run v w rv code m Hr He) as (r & w' & v' & E & F & R & X).
  destruct (profile_of mode v Hp) as [P1 P2]. rewrite P2 in X.
  assert (Hp' : profiles mode v').
  { revert Hp. unfold profiles. unfold flags in F. injection F as -> -> ->. auto. }
  destruct (profile_of mode v' Hp') as [P1' _].
  exists r, w', v', (pr_profile (x_get mode (view v))), (pr_profile (x_get mode (view v'))).
  split; [exact E|]. split; [exact R|]. split; [exact Hp'|]. split; [exact P1|]. split; [exact P1'|]. cbv zeta.
  pose proof (mok_depth _ (eok_msg _ _ _ He)) as D1. pose proof (eok_depth _ _ _ He) as D2.
  set (t := runs_of g w rv code m) in *.
  assert (Et : tree_depth t = msg_depth m) by reflexivity.
  destruct (stamp_shape (g_tick g) mode t _ _ (v_time v) X ltac:(lia)) as [S1 S2].
  destruct (prof_effect (g_tick g) mode t _ _ X) as (p & H1 & H2). change (x_time (view v)) with (v_time v) in *.
  destruct (runs_ok mode (fst (stamp (g_tick g) t (v_time v))) (tree_depth t) (x_get mode (view v))) as (p2 & K1 & [A1 A2 A3] & _ & _ & _ & K2 & K3).
  - lia.
  - exact S2.
  - rewrite get_view. apply (ok_get_prof (g_keccak g) (g_code_of g)). apply reach_ok; assumption.
  - exact S1.
  - apply stamp_times_ok. intros k. specialize (Hc k). unfold kTicksNotMeasured. exact Hc.
  - rewrite H1 in K1. injection K1 as <-. rewrite H2, x_get_at. rewrite Et in *.
    split; [intros b; rewrite A1, stamp_count; reflexivity|]. split; [intros b; rewrite A2, stamp_ticks; reflexivity|].
    split; [exact K2|]. split.
    + intros h. unfold duration. rewrite stamp_timings. cbn [fst snd]. exact (K3 h).
    + unfold readings. rewrite stamp_timings. cbn [snd]. exact (f_equal x_time H2).
Qed.

(** total number over a session *)
Lemma session_counts mode l : forall v, clock_range (g_tick g) -> reach g v -> profiles mode v ->
  Forall (fun i : W * revision * list Z * message => let '(_, _, code, m) := i in exec_ok (g_code_of g) code m) l ->
  exists v' p p', session g v l = Ok v' /\ dump_profile v = Some p /\ dump_profile v' = Some p' /\ profiles mode v' /\ reach g v' /\
    (forall b, pf_calls p' b mod 2 ^ 64 = (pf_calls p b + total (map (fun i => let '(w, rv, code, m) := i in executions mode b (runs_of g w rv code m)) l)) mod 2 ^ 64) /\
    pf_icalls p' mod 2 ^ 64 = (pf_icalls p + zlen (filter (fun i : W * revision * list Z * message => msg_depth (snd i) =? 0) l)) mod 2 ^ 64.
Proof.
  induction l as [|[[[w rv] code] m] l IH]; intros v Hc Hr Hp Hl.
  - destruct (profile_of mode v Hp) as [P1 _]. exists v, (pr_profile (x_get mode (view v))), (pr_profile (x_get mode (view v))).
    cbn [session map total fold_right filter]. repeat (split; [solve [reflexivity|assumption]|]).
    split; [intros b; f_equal; lia|]. unfold zlen. cbn [Datatypes.length]. f_equal. lia.
  - inversion Hl as [|? ? He Hl']; subst.
    destruct (profile_run mode v w rv code m Hc Hr He Hp) as (r & w' & v1 & p & p1 & E1 & R1 & Hp1 & P & P1 & C1 & _ & C2 & C3 & _).
    destruct (IH v1 Hc R1 Hp1 Hl') as (v2 & q & p2 & E2 & Q & P2 & Hp2 & R2 & D1 & D2).
    rewrite P1 in Q. injection Q as <-.
    exists v2, p, p2. cbn [session]. rewrite E1. cbn [rbind]. split; [exact E2|]. split; [exact P|]. split; [exact P2|].
    split; [exact Hp2|]. split; [exact R2|]. split.
    + intros b. rewrite D1. cbn [map total fold_right]. rewrite <- Zplus_mod_idemp_l, C1, Zplus_mod_idemp_l. f_equal. unfold total. lia.
    + rewrite D2. cbn [filter snd]. destruct (Z.eqb_spec (msg_depth m) 0) as [h|h].
      * destruct (C3 h) as [-> _]. rewrite Zplus_mod_idemp_l. f_equal. unfold zlen. cbn [Datatypes.length]. lia.
      * destruct (C2 h) as [-> _]. reflexivity.
Qed.

Lemma nonneg_times v w rv code m : clock_monotone (g_tick g) ->
  Forall (fun i : timing => 0 <= snd i) (fst (fst (timings (g_tick g) (runs_of g w rv code m) (v_time v)))) /\
  0 <= duration (g_tick g) (runs_of g w rv code m) (v_time v).
Proof.
  intros Hm. unfold duration. rewrite stamp_timings. cbn [fst snd]. set (t := runs_of g w rv code m).
  split.
  - rewrite Forall_map. unfold timing_of. cbn [snd]. apply own_ticks_nonneg. apply stamp_clock. exact Hm.
  - destruct t as [m0 body]. rewrite stamp_eq. cbn [fst run_stop run_start].
    assert ((v_time v <= snd (stamps (stamp_instr (g_tick g)) body (S (v_time v))))%nat).
    { pose proof (proj1 (stamp_times (g_tick g) (Tree m0 body) (v_time v) 0)) as X. rewrite stamp_eq in X. cbn [snd] in X. lia. }
    specialize (Hm _ _ H). lia.
Qed.

End Obs.

Lemma merge_adds a b i :
  pf_calls (profile_merge a b) i = (pf_calls a i + pf_calls b i) mod 2 ^ 64 /\
  pf_ticks (profile_merge a b) i = (pf_ticks a i + pf_ticks b i) mod 2 ^ 64 /\
  pf_icalls (profile_merge a b) = (pf_icalls a + pf_icalls b) mod 2 ^ 64 /\
  pf_iticks (profile_merge a b) = (pf_iticks a + pf_iticks b) mod 2 ^ 64.
Proof. intros. repeat split. Qed.

Lemma reset_clears v p : dump_profile (reset_profiler v) = Some p -> forall b, pf_calls p b = 0 /\ pf_ticks p b = 0 /\ pf_icalls p = 0 /\ pf_iticks p = 0.
Proof.
  unfold reset_profiler, dump_profile. destruct v as [l a s pr px i h lg p1 p2 t q]. cbn.
  destruct pr; cbn; [intros E; injection E as <-; cbn; auto|]. destruct px; cbn; [intros E; injection E as <-; cbn; auto|discriminate].
Qed.

(** ** A run with a call and a jump *)
From Verif Require Import Toy.
Definition callee : list Z := [0x60; 1; 0x50; 0x00].
Definition caller : list Z := [0x60; 0; 0x60; 0; 0x60; 0; 0x60; 0; 0x60; 0; 0x60; 9; 0x60; 50; 0xF1; 0x60; 20; 0x56; 0; 0; 0x5B; 0x00].
Definition seen (e : event) : Z * Z * option Z := (shown (ev_byte e), ev_gas e, ev_top e).
Definition written (l : log_line) : Z * Z * option Z := (opcode_value (ln_op l), ln_gas l, ln_top l).
Lemma written_seen ls es : Forall2 shows_line ls es -> map written ls = map seen es.
Proof. induction 1 as [|l e ls es (A & B & C) _ IH]; [reflexivity|]. cbn [map]. rewrite IH. unfold written, seen. rewrite A, B, C. reflexivity. Qed.
Definition on (name : string) (v : vm) : vm := snd (set_option name "true" v).

Lemma toy_clock code : clock_range (g_tick (toy_setting code)) /\ clock_monotone (g_tick (toy_setting code)).
Proof. unfold clock_range, clock_monotone. cbn [toy_setting g_tick]. split; intros; lia. Qed.

Lemma caller_seen : map seen (flat (runs_of (toy_setting callee) toy0 London caller (toy_msg 10000 []))) =
  [(0x60, 10000, None); (0x60, 9997, Some 0); (0x60, 9994, Some 0); (0x60, 9991, Some 0); (0x60, 9988, Some 0); (0x60, 9985, Some 0);
   (0x60, 9982, Some 9); (0xF1, 9979, Some 50);
     (0x60, 50, None); (0x50, 47, Some 1); (0x00, 45, None);
   (0x60, 7374, Some 1); (0x56, 7371, Some 20); (0x00, 7362, Some 1)].
Proof. vm_compute. reflexivity. Qed.

Lemma switch_same {W} (g : setting W) (Hg : setting_ok g) v name value w rv code m : reach g v -> exec_ok (g_code_of g) code m ->
  exists r w' v1 v2, Execute g v w rv code m = Ok (r, w', v1) /\ Execute g (snd (set_option name value v)) w rv code m = Ok (r, w', v2).
Proof. intros Hr He. apply (same_everywhere g Hg); [exact Hr|apply reach_option; exact Hr|exact He]. Qed.

Lemma profile_counts {W} (g : setting W) (Hg : setting_ok g) mode v w rv code m :
  clock_range (g_tick g) -> reach g v -> exec_ok (g_code_of g) code m -> profiles mode v ->
  exists r w' v' p p', Execute g v w rv code m = Ok (r, w', v') /\ dump_profile v = Some p /\ dump_profile v' = Some p' /\
    (forall b, pf_calls p' b mod 2 ^ 64 = (pf_calls p b + executions mode b (runs_of g w rv code m)) mod 2 ^ 64) /\
    pf_icalls p' mod 2 ^ 64 = (pf_icalls p + (if msg_depth m =? 0 then 1 else 0)) mod 2 ^ 64.
Proof.
  intros Hc Hr He Hp. destruct (profile_run g Hg mode v w rv code m Hc Hr He Hp) as (r & w' & v' & p & p' & E & _ & _ & P & P' & C & _ & D1 & D2 & _).
  exists r, w', v', p, p'. repeat (split; [assumption|]). destruct (Z.eqb_spec (msg_depth m) 0) as [h|h].
  - destruct (D2 h) as [-> _]. rewrite Z.mod_mod by lia. reflexivity.
  - destruct (D1 h) as [-> _]. f_equal. lia.
Qed.
Lemma profile_times {W} (g : setting W) (Hg : setting_ok g) mode v w rv code m :
  clock_range (g_tick g) -> reach g v -> exec_ok (g_code_of g) code m -> profiles mode v ->
  exists r w' v' p p', Execute g v w rv code m = Ok (r, w', v') /\ dump_profile v = Some p /\ dump_profile v' = Some p' /\
    let t := runs_of g w rv code m in
    (forall b, pf_ticks p' b mod 2 ^ 64 = (pf_ticks p b + time_in (g_tick g) mode b t (v_time v)) mod 2 ^ 64) /\
    pf_iticks p' mod 2 ^ 64 = (pf_iticks p + (if msg_depth m =? 0 then duration (g_tick g) t (v_time v) else 0)) mod 2 ^ 64 /\
    v_time v' = readings (g_tick g) t (v_time v).
Proof.
  intros Hc Hr He Hp. destruct (profile_run g Hg mode v w rv code m Hc Hr He Hp) as (r & w' & v' & p & p' & E & _ & _ & P & P' & _ & C & D1 & D2 & T).
  exists r, w', v', p, p'. split; [exact E|]. split; [exact P|]. split; [exact P'|]. cbv zeta. split; [exact C|]. split; [|exact T].
  destruct (Z.eqb_spec (msg_depth m) 0) as [h|h].
  - destruct (D2 h) as [_ ->]. rewrite Z.mod_mod by lia. rewrite Zplus_mod_idemp_r. reflexivity.
  - destruct (D1 h) as [_ ->]. f_equal. lia.
Qed.
Lemma hooks_in_bounds mode o d now p : zlen (pr_calls p) = kCallDataSize -> 0 <= d <= 1024 ->
  (exists p', prof_pre mode o d now p = Ok p') /\ (exists p', prof_post mode o d now p = Ok p') /\
  (exists p', prof_pre_run d now p = Ok p') /\ (exists p', prof_post_run d now p = Ok p').
Proof.
  intros Hl Hd. destruct (pre_len mode o d now p Hl Hd) as (p1 & E1 & _). destruct (post_len mode o d now p Hl Hd) as (p2 & E2 & _).
  destruct (pre_run_len d now p Hl Hd) as (p3 & E3 & _). destruct (post_run_len d now p Hl Hd) as (p4 & E4 & _). eauto 10.
Qed.
Lemma hook_too_deep mode now : prof_pre mode CALL 1025 now profiler_new = Undef UB_prof_oob.
Proof. destruct mode; reflexivity. Qed.

Lemma toy_run_ok : exec_ok (fun _ => []) caller (toy_msg 10000 []). Proof. apply toy_exec; first [lia|bytes|unfold zlen; cbn; lia]. Qed.
Lemma callee_ok : setting_ok (toy_setting callee). Proof. apply toy_ok; first [bytes|unfold zlen; cbn; lia]. Qed.
Lemma caller_same v : reach (toy_setting callee) v -> exists v1 v2,
  Execute (toy_setting callee) v toy0 London caller (toy_msg 10000 []) = Ok (mkRes EVMC_SUCCESS 7362 0 [] 0, mkToy [] [] [9] [] 100 [], v1) /\
  Execute (toy_setting callee) (on "logging" v) toy0 London caller (toy_msg 10000 []) = Ok (mkRes EVMC_SUCCESS 7362 0 [] 0, mkToy [] [] [9] [] 100 [], v2).
Proof.
  intros Hr. destruct (execute_reference _ callee_ok v toy0 London caller (toy_msg 10000 []) Hr toy_run_ok) as (v1 & E1 & _).
  destruct (execute_reference _ callee_ok (on "logging" v) toy0 London caller (toy_msg 10000 []) (reach_option _ _ _ _ Hr) toy_run_ok) as (v2 & E2 & _).
  assert (X : reference (toy_setting callee) toy0 London caller (toy_msg 10000 []) = (mkRes EVMC_SUCCESS 7362 0 [] 0, mkToy [] [] [9] [] 100 [])) by (vm_compute; reflexivity).
  rewrite X in E1, E2. exists v1, v2. split; assumption.
Qed.
Lemma jumpdest_uncounted :
  code_at caller 20 = 0x5B /\ (exists f, ref_run (toy_setting callee) (toy_msg 10000 []) London caller 10 (initial (toy_msg 10000 []) toy0) = Next f /\ f_pc f = 20) /\
  executions PFull 0x5B (runs_of (toy_setting callee) toy0 London caller (toy_msg 10000 [])) = 0.
Proof.
  split; [reflexivity|]. split; [|vm_compute; reflexivity].
  assert (X : match ref_run (toy_setting callee) (toy_msg 10000 []) London caller 10 (initial (toy_msg 10000 []) toy0) with Next f => f_pc f = 20 | _ => False end) by (vm_compute; reflexivity).
  destruct (ref_run _ _ _ _ _ _) as [f| |]; [|destruct X..]. eauto.
Qed.
Lemma caller_counts : let t := runs_of (toy_setting callee) toy0 London caller (toy_msg 10000 []) in
  executions PFull 0x60 t = 9 /\ executions PExternal 0x60 t = 0 /\ executions PFull 0xF1 t = 1 /\ executions PExternal 0xF1 t = 1 /\
  executions PFull 0 t = 2 /\ exec_ok (fun _ => []) caller (toy_msg 10000 []) /\
  exists v, reach (toy_setting callee) v /\ profiles PExternal v.
Proof.
  cbv zeta. do 5 (split; [vm_compute; reflexivity|]). split; [exact toy_run_ok|].
  exists (on "profiling_external" (vm_new 0 0)). split; [apply reach_option, reach_new|repeat split].
Qed.
Lemma caller_times : let t := runs_of (toy_setting callee) toy0 London caller (toy_msg 10000 []) in
  let c := g_tick (toy_setting callee) in
  time_in c PFull 0xF1 t 0 = 20 /\ time_in c PFull 0x60 t 0 = 90 /\ duration c t 0 = 310 /\ readings c t 0 = 32%nat.
Proof. vm_compute. auto. Qed.
Lemma caller_log : exists r w' v', Execute (toy_setting callee) (on "logging" (vm_new 0 0)) toy0 London caller (toy_msg 10000 []) = Ok (r, w', v') /\
  map written (v_log v') =
  [(0x60, 10000, None); (0x60, 9997, Some 0); (0x60, 9994, Some 0); (0x60, 9991, Some 0); (0x60, 9988, Some 0); (0x60, 9985, Some 0);
   (0x60, 9982, Some 9); (0xF1, 9979, Some 50);
     (0x60, 50, None); (0x50, 47, Some 1); (0x00, 45, None);
   (0x60, 7374, Some 1); (0x56, 7371, Some 20); (0x00, 7362, Some 1)].
Proof.
  destruct (log_lines _ callee_ok (on "logging" (vm_new 0 0)) toy0 London caller (toy_msg 10000 []) (reach_option _ _ _ _ (reach_new _ _ _)) toy_run_ok eq_refl)
    as (r & w' & v' & ls & E & El & F). exists r, w', v'. split; [exact E|]. rewrite El, map_app, (written_seen _ _ F), caller_seen. reflexivity.
Qed.
