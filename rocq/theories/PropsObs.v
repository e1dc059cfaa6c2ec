(** C40 - C42, C51: observers, profilers, the log. *)
From Verif Require Import Base Host SpecEvm SpecVm Opcodes Profiler Vm SpecStep Client ClientFacts SpecObs ProfilerFacts PropFacts PropFacts6 PropFacts11 Toy.
From Coq Require Import Lia ZArith List Bool String.
Import ListNotations.
Local Open Scope list_scope.

(** ** C40 *)
(** whatever is switched on, and whatever the observers have recorded before *)
Theorem C40_same_result : forall W (g : setting W), setting_ok g -> forall v name value w rv code m,
  reach g v -> exec_ok (g_code_of g) code m ->
  exists r w' v1 v2, Execute g v w rv code m = Ok (r, w', v1) /\ Execute g (snd (set_option name value v)) w rv code m = Ok (r, w', v2).
Proof. exact (@switch_same). Qed.
Theorem C40_same_everywhere : forall W (g : setting W), setting_ok g -> forall v1 v2 w rv code m,
  reach g v1 -> reach g v2 -> exec_ok (g_code_of g) code m ->
  exists r w' v1' v2', Execute g v1 w rv code m = Ok (r, w', v1') /\ Execute g v2 w rv code m = Ok (r, w', v2').
Proof. exact (@same_everywhere). Qed.
Example C40_case : forall v, reach (toy_setting callee) v -> exists v1 v2,
  Execute (toy_setting callee) v toy0 London caller (toy_msg 10000 []) = Ok (mkRes EVMC_SUCCESS 7362 0 [] 0, mkToy [] [] [9] [] 100 [], v1) /\
  Execute (toy_setting callee) (on "logging" v) toy0 London caller (toy_msg 10000 []) = Ok (mkRes EVMC_SUCCESS 7362 0 [] 0, mkToy [] [] [9] [] 100 [], v2).
Proof. exact caller_same. Qed.
Print Assumptions C40_same_result.
Print Assumptions C40_same_everywhere.

(** ** C41 *)
(** [runs_of g w rv code m]: the run of the message with the runs nested in it; [executions mode b t]: number of dispatched
    instructions [b] in it (counting only those that the mode looks at); counters are 64-bit numbers *)
Theorem C41_counts : forall W (g : setting W), setting_ok g -> forall mode v w rv code m,
  clock_range (g_tick g) -> reach g v -> exec_ok (g_code_of g) code m -> profiles mode v ->
  exists r w' v' p p', Execute g v w rv code m = Ok (r, w', v') /\ dump_profile v = Some p /\ dump_profile v' = Some p' /\
    (forall b, pf_calls p' b mod 2 ^ 64 = (pf_calls p b + executions mode b (runs_of g w rv code m)) mod 2 ^ 64) /\
    pf_icalls p' mod 2 ^ 64 = (pf_icalls p + (if msg_depth m =? 0 then 1 else 0)) mod 2 ^ 64.
Proof. exact (@profile_counts). Qed.
(** any number of executions *)
Theorem C41_session : forall W (g : setting W), setting_ok g -> forall mode l v, clock_range (g_tick g) -> reach g v -> profiles mode v ->
  Forall (fun i : W * revision * list Z * message => let '(_, _, code, m) := i in exec_ok (g_code_of g) code m) l ->
  exists v' p p', session g v l = Ok v' /\ dump_profile v = Some p /\ dump_profile v' = Some p' /\ profiles mode v' /\ reach g v' /\
    (forall b, pf_calls p' b mod 2 ^ 64 = (pf_calls p b + total (map (fun i => let '(w, rv, code, m) := i in executions mode b (runs_of g w rv code m)) l)) mod 2 ^ 64) /\
    pf_icalls p' mod 2 ^ 64 = (pf_icalls p + zlen (filter (fun i : W * revision * list Z * message => msg_depth (snd i) =? 0) l)) mod 2 ^ 64.
Proof. exact (@session_counts). Qed.
Theorem C41_reset : forall v p, dump_profile (reset_profiler v) = Some p ->
  forall b, pf_calls p b = 0 /\ pf_ticks p b = 0 /\ pf_icalls p = 0 /\ pf_iticks p = 0.
Proof. exact reset_clears. Qed.
Theorem C41_merge : forall a b i,
  pf_calls (profile_merge a b) i = (pf_calls a i + pf_calls b i) mod 2 ^ 64 /\
  pf_ticks (profile_merge a b) i = (pf_ticks a i + pf_ticks b i) mod 2 ^ 64 /\
  pf_icalls (profile_merge a b) = (pf_icalls a + pf_icalls b) mod 2 ^ 64 /\
  pf_iticks (profile_merge a b) = (pf_iticks a + pf_iticks b) mod 2 ^ 64.
Proof. exact merge_adds. Qed.
(** a JUMPDEST reached by a jump is executed, but not counted: it belongs to the jump *)
Theorem C41_jumpdest_refuted :
  code_at caller 20 = 0x5B /\ (exists f, ref_run (toy_setting callee) (toy_msg 10000 []) London caller 10 (initial (toy_msg 10000 []) toy0) = Next f /\ f_pc f = 20) /\
  executions PFull 0x5B (runs_of (toy_setting callee) toy0 London caller (toy_msg 10000 [])) = 0.
Proof. exact jumpdest_uncounted. Qed.
Example C41_case : let t := runs_of (toy_setting callee) toy0 London caller (toy_msg 10000 []) in
  executions PFull 0x60 t = 9 /\ executions PExternal 0x60 t = 0 /\ executions PFull 0xF1 t = 1 /\ executions PExternal 0xF1 t = 1 /\
  executions PFull 0 t = 2 /\ exec_ok (fun _ => []) caller (toy_msg 10000 []) /\
  exists v, reach (toy_setting callee) v /\ profiles PExternal v.
Proof. exact caller_counts. Qed.
Print Assumptions C41_counts.
Print Assumptions C41_session.
Print Assumptions C41_reset.
Print Assumptions C41_merge.
Print Assumptions C41_jumpdest_refuted.

(** ** C42 *)
(** [time_in clock mode b t n]: time spent in [b] itself, with the clock readings from the [n]-th on *)
Theorem C42_times : forall W (g : setting W), setting_ok g -> forall mode v w rv code m,
  clock_range (g_tick g) -> reach g v -> exec_ok (g_code_of g) code m -> profiles mode v ->
  exists r w' v' p p', Execute g v w rv code m = Ok (r, w', v') /\ dump_profile v = Some p /\ dump_profile v' = Some p' /\
    let t := runs_of g w rv code m in
    (forall b, pf_ticks p' b mod 2 ^ 64 = (pf_ticks p b + time_in (g_tick g) mode b t (v_time v)) mod 2 ^ 64) /\
    pf_iticks p' mod 2 ^ 64 = (pf_iticks p + (if msg_depth m =? 0 then duration (g_tick g) t (v_time v) else 0)) mod 2 ^ 64 /\
    v_time v' = readings (g_tick g) t (v_time v).
Proof. exact (@profile_times). Qed.
(** with a clock that does not run backwards no time is negative, so nothing wraps around *)
Theorem C42_no_underflow : forall W (g : setting W) v w rv code m, clock_monotone (g_tick g) ->
  Forall (fun i : timing => 0 <= snd i) (fst (fst (timings (g_tick g) (runs_of g w rv code m) (v_time v)))) /\
  0 <= duration (g_tick g) (runs_of g w rv code m) (v_time v).
Proof. exact (@nonneg_times). Qed.
(** the hooks at depths 0 to 1024 stay within the table, those at depth 1025 do not *)
Theorem C42_in_bounds : forall mode o d now p, zlen (pr_calls p) = kCallDataSize -> 0 <= d <= 1024 ->
  (exists p', prof_pre mode o d now p = Ok p') /\ (exists p', prof_post mode o d now p = Ok p') /\
  (exists p', prof_pre_run d now p = Ok p') /\ (exists p', prof_post_run d now p = Ok p').
Proof. exact hooks_in_bounds. Qed.
Theorem C42_depth_refuted : forall mode now, prof_pre mode CALL 1025 now profiler_new = Undef UB_prof_oob.
Proof. exact hook_too_deep. Qed.
(** CALL takes 9 readings of 10 ticks, 7 of which belong to the callee *)
Example C42_case : let t := runs_of (toy_setting callee) toy0 London caller (toy_msg 10000 []) in
  let c := g_tick (toy_setting callee) in
  time_in c PFull 0xF1 t 0 = 20 /\ time_in c PFull 0x60 t 0 = 90 /\ duration c t 0 = 310 /\ readings c t 0 = 32%nat.
Proof. exact caller_times. Qed.
Print Assumptions C42_times.
Print Assumptions C42_no_underflow.
Print Assumptions C42_in_bounds.
Print Assumptions C42_depth_refuted.

(** ** C51 *)
Theorem C51_log : forall W (g : setting W), setting_ok g -> forall v w rv code m, reach g v -> exec_ok (g_code_of g) code m -> v_logging v = true ->
  exists r w' v' lines, Execute g v w rv code m = Ok (r, w', v') /\ v_log v' = v_log v ++ lines /\
    Forall2 shows_line lines (flat (runs_of g w rv code m)).
Proof. exact (@log_lines). Qed.
Theorem C51_silent : forall W (g : setting W), setting_ok g -> forall v w rv code m, reach g v -> exec_ok (g_code_of g) code m -> v_logging v = false ->
  exists r w' v', Execute g v w rv code m = Ok (r, w', v') /\ v_log v' = v_log v.
Proof. exact (@log_silent). Qed.
(** a caller, its callee, and a jump whose JUMPDEST is not logged *)
Example C51_case : exists r w' v', Execute (toy_setting callee) (on "logging" (vm_new 0 0)) toy0 London caller (toy_msg 10000 []) = Ok (r, w', v') /\
  map written (v_log v') =
  [(0x60, 10000, None); (0x60, 9997, Some 0); (0x60, 9994, Some 0); (0x60, 9991, Some 0); (0x60, 9988, Some 0); (0x60, 9985, Some 0);
   (0x60, 9982, Some 9); (0xF1, 9979, Some 50);
     (0x60, 50, None); (0x50, 47, Some 1); (0x00, 45, None);
   (0x60, 7374, Some 1); (0x56, 7371, Some 20); (0x00, 7362, Some 1)].
Proof. exact caller_log. Qed.
Print Assumptions C51_log.
Print Assumptions C51_silent.
