(** Models vm/evmzero/profiler.h: Profile and Profiler (lines 104-344).  Every hook that reads the
    clock gets the value of internal::Now() as an argument.  The arrays indexed by op codes have 256
    elements and op codes are uint8_t, hence are modelled as functions; the per-depth table keeps its
    bounds check.  TimeConverter and Dump (floating point, output) are not modelled. *)
From Verif Require Import Base Opcodes.
From Coq Require Import Sorted.

(** 105-108 ProfilerMode *)
Inductive pmode : Set := PFull | PExternal.

(** 194-208: calls_, total_ticks_, interpreter_stats_ *)
Record profile : Type := mkProfile { pf_calls : Z -> Z; pf_ticks : Z -> Z; pf_icalls : Z; pf_iticks : Z }.
(** 330-334 CallData *)
Record call_data : Set := mkCall { cd_istart : Z; cd_iend : Z; cd_cstart : Z }.
(** 338-343: profile_, start_ticks_, call_data_ *)
Record profiler : Type := mkProfiler { pr_profile : profile; pr_start : Z -> Z; pr_calls : list call_data }.

(** 336 kTicksNotMeasured *)
Definition kTicksNotMeasured : Z := 2 ^ 64 - 1.
(** 343: kMaxCallDepth + 2 *)
Definition kCallDataSize : Z := 1024 + 2.

(** 169-174 Profile::Reset, and default construction *)
Definition profile_new : profile := mkProfile (fun _ => 0) (fun _ => 0) 0 0.
(** 315-319 Profiler::Reset, and default construction *)
Definition profiler_new : profiler :=
  mkProfiler profile_new (fun _ => 0) (repeat (mkCall 0 0 0) (Z.to_nat kCallDataSize)).

(** 160-167 Merge (uint64_t additions) *)
Definition profile_merge (a b : profile) : profile :=
  mkProfile (fun i => u64 (pf_calls a i + pf_calls b i)) (fun i => u64 (pf_ticks a i + pf_ticks b i))
    (u64 (pf_icalls a + pf_icalls b)) (u64 (pf_iticks a + pf_iticks b)).
(** 312 Profiler::Merge *)
Definition profiler_merge (p : profiler) (b : profile) : profiler :=
  mkProfiler (profile_merge (pr_profile p) b) (pr_start p) (pr_calls p).

Definition upd_at (f : Z -> Z) (i v : Z) : Z -> Z := fun j => if j =? i then v else f j.

(** call_data_[i] *)
Definition cd_get (p : profiler) (i : Z) : res call_data :=
  match znth (pr_calls p) i with Some c => Ok c | None => Undef UB_prof_oob end.
Definition cd_set (p : profiler) (i : Z) (c : call_data) : profiler :=
  mkProfiler (pr_profile p) (pr_start p) (list_upd (pr_calls p) (Z.to_nat i) c).

(** 233-237, 253-257: which op codes are measured *)
Definition measured (mode : pmode) (o : opcode) : bool :=
  match mode with PFull => true | PExternal => is_external_opcode o || is_call_opcode o end.

(** 232-249 PreInstruction *)
Definition prof_pre (mode : pmode) (o : opcode) (depth now : Z) (p : profiler) : res profiler :=
  if negb (measured mode o) then Ok p
  else if is_call_opcode o then
    do! c <- cd_get p depth;
    let p := cd_set p depth (mkCall (cd_istart c) (cd_iend c) now) in
    do! c <- cd_get p (depth + 1);
    Ok (cd_set p (depth + 1) (mkCall kTicksNotMeasured (cd_iend c) (cd_cstart c)))
  else Ok (mkProfiler (pr_profile p) (upd_at (pr_start p) (opcode_value o) now) (pr_calls p)).

(** 252-288 PostInstruction *)
Definition prof_post (mode : pmode) (o : opcode) (depth now : Z) (p : profiler) : res profiler :=
  if negb (measured mode o) then Ok p
  else
    do! ticks <-
      (if is_call_opcode o then
         do! call <- cd_get p depth;
         do! interpreter <- cd_get p (depth + 1);
         let interpreter_ticks := u64 (cd_iend interpreter - cd_istart interpreter) in
         let call_ticks := u64 (now - cd_cstart call) in
         Ok (if negb (cd_istart interpreter =? kTicksNotMeasured)
             then u64 (call_ticks - interpreter_ticks) else call_ticks)
       else Ok (u64 (now - pr_start p (opcode_value o))));
    let f := pr_profile p in
    let i := opcode_value o in
    Ok (mkProfiler (mkProfile (upd_at (pf_calls f) i (u64 (pf_calls f i + 1)))
                              (upd_at (pf_ticks f) i (u64 (pf_ticks f i + ticks)))
                              (pf_icalls f) (pf_iticks f)) (pr_start p) (pr_calls p)).

(** 291-295 PreRun *)
Definition prof_pre_run (depth now : Z) (p : profiler) : res profiler :=
  do! c <- cd_get p depth;
  Ok (cd_set p depth (mkCall now (cd_iend c) (cd_cstart c))).

(** 298-309 PostRun *)
Definition prof_post_run (depth now : Z) (p : profiler) : res profiler :=
  do! c <- cd_get p depth;
  let p := cd_set p depth (mkCall (cd_istart c) now (cd_cstart c)) in
  if depth =? 0 then
    let f := pr_profile p in
    Ok (mkProfiler (mkProfile (pf_calls f) (pf_ticks f) (u64 (pf_icalls f + 1))
                              (u64 (pf_iticks f + u64 (now - cd_istart c)))) (pr_start p) (pr_calls p))
  else Ok p.

(** ** Runs as the profiler sees them *)
(** A run of the interpreter: clock at PreRun, the instructions (op code, clock at PreInstruction,
    the interpreter runs nested in it, clock at PostInstruction), clock at PostRun. *)
Inductive run : Type := Run (t0 : Z) (body : list (opcode * Z * list run * Z)) (t1 : Z).
Definition instr_run : Type := (opcode * Z * list run * Z)%type.

(** the calls of the hooks during a run at depth [d] *)
Inductive hook : Type :=
| HPreRun (d t : Z) | HPostRun (d t : Z) | HPre (o : opcode) (d t : Z) | HPost (o : opcode) (d t : Z).
Definition hook_step (mode : pmode) (h : hook) (p : profiler) : res profiler :=
  match h with
  | HPreRun d t => prof_pre_run d t p
  | HPostRun d t => prof_post_run d t p
  | HPre o d t => prof_pre mode o d t p
  | HPost o d t => prof_post mode o d t p
  end.
Fixpoint hook_steps (mode : pmode) (hs : list hook) (p : profiler) : res profiler :=
  match hs with [] => Ok p | h :: hs' => do! p <- hook_step mode h p; hook_steps mode hs' p end.
Fixpoint hooks_of (d : Z) (r : run) : list hook :=
  match r with
  | Run t0 body t1 =>
    HPreRun d t0 ::
    flat_map (fun i : opcode * Z * list run * Z =>
      match i with (o, a, ns, b) => HPre o d a :: flat_map (hooks_of (d + 1)) ns ++ [HPost o d b] end) body ++
    [HPostRun d t1]
  end.
Definition hook_time (h : hook) : Z :=
  match h with HPreRun _ t | HPostRun _ t | HPre _ _ t | HPost _ _ t => t end.

(** ** What a profile should say about a run *)
Definition run_start (r : run) : Z := match r with Run t _ _ => t end.
Definition run_stop (r : run) : Z := match r with Run _ _ t => t end.
Definition zsum (l : list Z) : Z := fold_right Z.add 0 l.

(** all instructions of a run and of the runs nested in it *)
Fixpoint all_instrs (r : run) : list instr_run :=
  match r with
  | Run _ body _ =>
    flat_map (fun i : opcode * Z * list run * Z => i :: match i with (_, _, ns, _) => flat_map all_instrs ns end) body
  end.
Definition instr_op (i : instr_run) : opcode := fst (fst (fst i)).
Definition instr_nested (i : instr_run) : list run := snd (fst i).
Definition instr_time (i : instr_run) : Z := snd i - snd (fst (fst i)).

(** number of measured executions of the op code with value [b] *)
Definition count_of (mode : pmode) (b : Z) (r : run) : Z :=
  zlen (filter (fun i => measured mode (instr_op i) && (opcode_value (instr_op i) =? b)) (all_instrs r)).
(** duration of an instruction without that of the (last) run nested in a call *)
Definition own_ticks (i : instr_run) : Z :=
  instr_time i - match rev (instr_nested i) with n :: _ => run_stop n - run_start n | [] => 0 end.
Definition ticks_of (mode : pmode) (b : Z) (r : run) : Z :=
  zsum (map own_ticks (filter (fun i => measured mode (instr_op i) && (opcode_value (instr_op i) =? b)) (all_instrs r))).

(** only call instructions have runs nested in them *)
Definition well_nested (r : run) : Prop :=
  Forall (fun i => is_call_opcode (instr_op i) = false -> instr_nested i = []) (all_instrs r).
(** the clock does not go backwards *)
Definition clock_ok (r : run) : Prop := Sorted Z.le (map hook_time (hooks_of 0 r)).
(** the clock shows no value that the profiler reserves *)
Definition times_ok (r : run) : Prop := Forall (fun h => 0 <= hook_time h < kTicksNotMeasured) (hooks_of 0 r).
(** nesting depth *)
Fixpoint height (r : run) : Z :=
  match r with
  | Run _ body _ =>
    fold_right Z.max 0 (map (fun i : opcode * Z * list run * Z =>
      match i with (_, _, ns, _) => fold_right Z.max 0 (map (fun n => 1 + height n) ns) end) body)
  end.
