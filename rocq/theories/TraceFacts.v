(** Logs and profiles in terms of the reference's tree of runs. *)
From Verif Require Import Base Host Memory Opcodes Interp SpecEvm SpecTrace SpecVm MemFacts JumpFacts SimBase SpecFacts Sim
  Profiler ProfilerFacts Vm VmFacts Trace SpecStep Client ClientFacts StaticFacts SpecObs TraceVm.
From Coq Require Import Lia ZArith List Bool Sorted.

Section TreeInd.
Variable P : tree -> Prop.
Hypothesis HP : forall m body, Forall (fun i : event * list tree => Forall P (snd i)) body -> P (Tree m body).
Fixpoint tree_ind2 (t : tree) : P t :=
  match t with
  | Tree m body =>
    HP m body
      ((fix go (l : list (event * list tree)) : Forall (fun i => Forall P (snd i)) l :=
          match l with
          | [] => Forall_nil _
          | i :: l' =>
            Forall_cons i
              (match i as i return Forall P (snd i) with
               | (_, ts) =>
                 (fix nested (ts : list tree) : Forall P ts :=
                    match ts with [] => Forall_nil _ | t :: ts' => Forall_cons t (tree_ind2 t) (nested ts') end) ts
               end) (go l')
          end) body)
  end.
End TreeInd.

(** ** Logging *)
Lemma log_effect tick t : forall x x', k_effect tick KLog t x x' ->
  x' = mkWatch (x_log x ++ map line_of (flat t)) (x_prof x) (x_profx x) (x_time x).
Proof.
  induction t as [m body IH] using tree_ind2. intros x x' (a & b & -> & HC & ->). cbn [flat].
  revert x HC. induction IH as [|[e ts] body Hi HB IHB]; intros x HC; cbn [chain flat_map map] in *.
  - subst b. rewrite app_nil_r. destruct x; reflexivity.
  - destruct HC as (y & (_ & y1 & z & Hpre & HN & Hpost) & HC). cbn [k_pre k_post] in Hpre, Hpost. subst y.
    rewrite (IHB _ HC). clear IHB HC. cbn [snd] in Hi.
    assert (Ez : z = mkWatch (x_log y1 ++ map line_of (flat_map flat ts)) (x_prof y1) (x_profx y1) (x_time y1)).
    { clear Hpre. revert y1 HN. induction Hi as [|t ts Ht Hts IHts]; intros y1 HN; cbn [chain flat_map map] in *.
      - subst z. rewrite app_nil_r. destruct y1; reflexivity.
      - destruct HN as (y2 & (_ & _ & E1) & HN). apply Ht in E1. rewrite (IHts _ HN), E1. cbn [x_log x_prof x_profx x_time].
        rewrite map_app, app_assoc. reflexivity. }
    rewrite Ez, Hpre. cbn [x_log x_prof x_profx x_time app map]. rewrite map_app, <- !app_assoc. reflexivity.
Qed.
Lemma none_effect tick t : forall x x', k_effect tick KNone t x x' -> x' = x.
Proof.
  induction t as [m body IH] using tree_ind2. intros x x' (a & b & -> & HC & ->).
  revert x HC. induction IH as [|[e ts] body Hi HB IHB]; intros x HC; cbn [chain] in *; [exact HC|].
  destruct HC as (y & (_ & y1 & z & Hpre & HN & Hpost) & HC). cbn [k_pre k_post] in Hpre, Hpost. subst y y1.
  rewrite (IHB _ HC). clear IHB HC. cbn [snd] in Hi.
  revert x HN. induction Hi as [|t ts Ht Hts IHts]; intros x HN; cbn [chain] in *; [exact HN|].
  destruct HN as (y2 & (_ & _ & E1) & HN). apply Ht in E1. rewrite (IHts _ HN). exact E1.
Qed.

(** ** Profiling *)
Section Stamp.
Variable tick : nat -> Z.
Section L.
Context {A B : Type}.
Variable f : A -> nat -> B * nat.
Fixpoint stamps (l : list A) (n : nat) : list B * nat :=
  match l with [] => ([], n) | a :: l => let '(b, n) := f a n in let '(bs, n) := stamps l n in (b :: bs, n) end.
End L.
Fixpoint stamp (t : tree) (n : nat) : run * nat :=
  match t with
  | Tree _ body =>
    let '(b, n') := stamps (fun (i : event * list tree) n =>
      let (e, ts) := i in let '(ns, n') := stamps stamp ts (S n) in ((op_of (ev_byte e), tick n, ns, tick n'), S n')) body (S n) in
    (Run (tick n) b (tick n'), S n')
  end.
Definition stamp_instr (i : event * list tree) (n : nat) : instr_run * nat :=
  let (e, ts) := i in let '(ns, n') := stamps stamp ts (S n) in ((op_of (ev_byte e), tick n, ns, tick n'), S n').

Lemma stamp_tree m body n : stamp (Tree m body) n =
  let '(b, n') := stamps stamp_instr body (S n) in (Run (tick n) b (tick n'), S n').
Proof. reflexivity. Qed.

Definition x_at (mode : pmode) (p : profiler) (n : nat) (x : watch) : watch :=
  mkWatch (x_log x) (match mode with PFull => p | PExternal => x_prof x end) (match mode with PFull => x_profx x | PExternal => p end) n.

Lemma prof_does_step mode h x x' : prof_does tick mode h x x' -> exists p, h (tick (x_time x)) (x_get mode x) = Ok p /\ x' = x_at mode p (S (x_time x)) x.
Proof. intros (p & E1 & ->). exists p. auto. Qed.

Lemma x_get_at mode p n x : x_get mode (x_at mode p n x) = p. Proof. destruct mode; reflexivity. Qed.
Lemma x_at_at mode p q n k x : x_at mode p n (x_at mode q k x) = x_at mode p n x. Proof. destruct mode; reflexivity. Qed.
Lemma x_at_same mode x : x_at mode (x_get mode x) (x_time x) x = x. Proof. destruct mode, x; reflexivity. Qed.

Definition instr_hooks (d : Z) (i : instr_run) : list hook :=
  match i with (o, a, ns, b) => HPre o d a :: flat_map (hooks_of (d + 1)) ns ++ [HPost o d b] end.

Lemma prof_effect mode t : forall x x', k_effect tick (KProf mode) t x x' ->
  exists p, hook_steps mode (hooks_of (tree_depth t) (fst (stamp t (x_time x)))) (x_get mode x) = Ok p /\
    x' = x_at mode p (snd (stamp t (x_time x))) x.
Proof.
  induction t as [m body IH] using tree_ind2. intros x x' (a & b & Hrun & HC & Hstop). cbn [k_prun k_qrun] in Hrun, Hstop.
  apply prof_does_step in Hrun as (p1 & E1 & ->). apply prof_does_step in Hstop as (p3 & E3 & ->).
  cbn [tree_depth]. rewrite stamp_tree.
  assert (HB : exists p2, hook_steps mode (flat_map (instr_hooks (msg_depth m)) (fst (stamps stamp_instr body (S (x_time x))))) p1 = Ok p2 /\
    b = x_at mode p2 (snd (stamps stamp_instr body (S (x_time x)))) x).
  { clear E1 E3. set (n := S (x_time x)) in *. clearbody n. revert n p1 HC.
    induction IH as [|[e ts] body Hi HB IHB]; intros n p1 HC; cbn [chain stamps] in *.
    - exists p1. split; [reflexivity|exact HC].
    - destruct HC as (y & (_ & y1 & z & Hpre & HN & Hpost) & HC). cbn [k_pre k_post] in Hpre, Hpost.
      apply prof_does_step in Hpre as (q1 & F1 & ->). apply prof_does_step in Hpost as (q3 & F3 & ->).
      rewrite x_at_at, x_get_at in *. cbn [x_at x_time] in F1, F3, HN, HC. cbn [snd] in Hi.
      assert (HNN : exists q2, hook_steps mode (flat_map (hooks_of (msg_depth m + 1)) (fst (stamps stamp ts (S n)))) q1 = Ok q2 /\
        z = x_at mode q2 (snd (stamps stamp ts (S n))) x).
      { fold (x_at mode q1 (S n) x) in HN. clear F1 F3 HC. set (k := S n) in *. clearbody k. revert k q1 HN.
        induction Hi as [|t ts Ht Hts IHts]; intros k q1 HN; cbn [chain stamps] in *.
        - exists q1. split; [reflexivity|exact HN].
        - destruct HN as (y2 & (D1 & _ & X1) & HN). apply Ht in X1 as (q2 & G1 & ->). rewrite D1 in G1.
          rewrite x_at_at, x_get_at in *. change (x_time (x_at mode q1 k x)) with k in *.
          destruct (stamp t k) as [r k1]. cbn [fst snd] in *.
          destruct (IHts _ _ HN) as (q4 & G2 & ->). destruct (stamps stamp ts k1) as [rs k2]. cbn [fst snd] in *.
          exists q4. cbn [flat_map]. rewrite hook_steps_app, G1. cbn [rbind]. auto. }
      destruct HNN as (q2 & F2 & ->). rewrite x_get_at, x_at_at in *. cbn [x_at x_time] in F3, HC.
      unfold stamp_instr at 1 3. destruct (stamps stamp ts (S n)) as [ns n1]. cbn [fst snd] in *.
      fold (x_at mode q3 (S n1) x) in HC.
      destruct (IHB _ _ HC) as (p2 & F4 & ->). destruct (stamps stamp_instr body (S n1)) as [bs n2]. cbn [fst snd] in *.
      exists p2. split; [|reflexivity]. cbn [flat_map]. rewrite hook_steps_app. unfold instr_hooks at 1. cbn [hook_steps hook_step]. rewrite F1. cbn [rbind].
      rewrite hook_steps_app, F2. cbn [rbind hook_steps hook_step]. rewrite F3. cbn [rbind]. exact F4. }
  destruct HB as (p2 & E2 & ->). rewrite x_get_at, x_at_at in *. cbn [x_at x_time] in E3.
  destruct (stamps stamp_instr body (S (x_time x))) as [bs n1]. cbn [fst snd] in *.
  exists p3. split; [|reflexivity]. cbn [hooks_of hook_steps hook_step]. rewrite E1. cbn [rbind].
  rewrite hook_steps_app. fold instr_hooks. change (flat_map (fun i : opcode * Z * list run * Z => let '(o, a, ns, b) := i in HPre o (msg_depth m) a :: flat_map (hooks_of (msg_depth m + 1)) ns ++ [HPost o (msg_depth m) b]) bs)
    with (flat_map (instr_hooks (msg_depth m)) bs). rewrite E2. cbn [rbind hook_steps hook_step]. rewrite E3. reflexivity.
Qed.
End Stamp.

(** ** The shape of runs *)
Lemma op_shown b : opcode_value (op_of b) = shown b.
Proof.
  unfold op_of, shown.
  destruct (znth dispatch_table b) as [o|] eqn:Eo.
  - assert (Hb : is_byte b).
    { unfold znth in Eo. destruct (Z.ltb_spec b 0); [discriminate|]. unfold is_byte. split; [assumption|].
      assert (Eo2 : nth_error dispatch_table (Z.to_nat b) <> None) by congruence. apply nth_error_Some in Eo2. change (length dispatch_table) with 256%nat in Eo2. lia. }
    pose proof (byte_check (fun b => opcode_value (match znth dispatch_table b with Some o => o | None => INVALID end) =?
      match instruction b with Some _ => b | None => 254 end) eq_refl b Hb) as X. cbv beta in X. rewrite Eo in X. apply Z.eqb_eq. exact X.
  - destruct (instruction b) as [i|] eqn:Ei; [|reflexivity]. exfalso. apply StaticFacts.instr_byte in Ei.
    destruct (dispatch_entry b Ei) as (o & E1 & _). congruence.
Qed.
Lemma op_measured mode b : measured mode (op_of b) = profiled mode (shown b).
Proof.
  destruct mode; [reflexivity|]. unfold op_of, shown.
  destruct (znth dispatch_table b) as [o|] eqn:Eo.
  - assert (Hb : is_byte b).
    { unfold znth in Eo. destruct (Z.ltb_spec b 0); [discriminate|]. unfold is_byte. split; [assumption|].
      assert (Eo2 : nth_error dispatch_table (Z.to_nat b) <> None) by congruence. apply nth_error_Some in Eo2. change (length dispatch_table) with 256%nat in Eo2. lia. }
    pose proof (byte_check (fun b => Bool.eqb (measured PExternal (match znth dispatch_table b with Some o => o | None => INVALID end))
      (profiled PExternal (match instruction b with Some _ => b | None => 254 end))) eq_refl b Hb) as X. cbv beta in X. rewrite Eo in X. apply Bool.eqb_prop. exact X.
  - destruct (instruction b) as [i|] eqn:Ei; [|reflexivity]. exfalso. apply StaticFacts.instr_byte in Ei.
    destruct (dispatch_entry b Ei) as (o & E1 & _). congruence.
Qed.

Section Stamp2.
Variable tick : nat -> Z.
Notation stamp := (stamp tick).
Notation stamp_instr := (stamp_instr tick).

(** [stamps] as a relation, for inductions *)
Lemma stamps_cons {A B} (f : A -> nat -> B * nat) a l n :
  stamps f (a :: l) n = (fst (f a n) :: fst (stamps f l (snd (f a n))), snd (stamps f l (snd (f a n)))).
Proof. cbn [stamps]. destruct (f a n) as [b n1]. cbn [fst snd]. destruct (stamps f l n1) as [bs n2]. reflexivity. Qed.
Lemma stamp_instr_eq e ts n : stamp_instr (e, ts) n =
  ((op_of (ev_byte e), tick n, fst (stamps stamp ts (S n)), tick (snd (stamps stamp ts (S n)))), S (snd (stamps stamp ts (S n)))).
Proof. unfold TraceFacts.stamp_instr. destruct (stamps stamp ts (S n)) as [ns n1]. reflexivity. Qed.
Lemma stamp_eq m body n : stamp (Tree m body) n =
  (Run (tick n) (fst (stamps stamp_instr body (S n))) (tick (snd (stamps stamp_instr body (S n)))), S (snd (stamps stamp_instr body (S n)))).
Proof. rewrite stamp_tree. destruct (stamps stamp_instr body (S n)) as [bs n1]. reflexivity. Qed.

(** clock readings are consecutive *)
Definition span (n n' : nat) : list Z := map tick (seq n (n' - n)).
Lemma span_app n k n' : (n <= k <= n')%nat -> span n n' = span n k ++ span k n'.
Proof. intros h. unfold span. replace (n' - n)%nat with ((k - n) + (n' - k))%nat by lia. rewrite seq_app, map_app. repeat f_equal. lia. Qed.
Lemma span_S n n' : (n < n')%nat -> span n n' = tick n :: span (S n) n'.
Proof. intros h. unfold span. replace (n' - n)%nat with (S (n' - S n)) by lia. reflexivity. Qed.
Lemma span_last n n' : (n <= n')%nat -> span n (S n') = span n n' ++ [tick n'].
Proof. intros h. rewrite (span_app n n') by lia. rewrite (span_S n' (S n')) by lia. unfold span at 2. rewrite Nat.sub_diag. reflexivity. Qed.

Lemma stamp_times t : forall n d, (n < snd (stamp t n))%nat /\ map hook_time (hooks_of d (fst (stamp t n))) = span n (snd (stamp t n)).
Proof.
  induction t as [m body IH] using tree_ind2. intros n d. rewrite stamp_eq. cbn [fst snd hooks_of map hook_time].
  set (fb := fun i : opcode * Z * list run * Z => let '(o, a, ns, b) := i in HPre o d a :: flat_map (hooks_of (d + 1)) ns ++ [HPost o d b]).
  assert (HB : forall k, (k <= snd (stamps stamp_instr body k))%nat /\
    map hook_time (flat_map fb (fst (stamps stamp_instr body k))) = span k (snd (stamps stamp_instr body k))).
  { induction IH as [|[e ts] body Hi HB IHB]; intros k.
    - cbn [stamps fst snd flat_map map]. split; [lia|]. unfold span. rewrite Nat.sub_diag. reflexivity.
    - rewrite stamps_cons, stamp_instr_eq. cbn [fst snd flat_map].
      assert (HN : forall j, (j <= snd (stamps stamp ts j))%nat /\
        map hook_time (flat_map (hooks_of (d + 1)) (fst (stamps stamp ts j))) = span j (snd (stamps stamp ts j))).
      { cbn [snd] in Hi. clear - Hi. induction Hi as [|t ts Ht Hts IHts]; intros j.
        - cbn [stamps fst snd flat_map map]. split; [lia|]. unfold span. rewrite Nat.sub_diag. reflexivity.
        - rewrite stamps_cons. cbn [fst snd flat_map]. destruct (Ht j (d + 1)) as [A1 A2]. destruct (IHts (snd (stamp t j))) as [B1 B2].
          split; [lia|]. rewrite map_app, A2, B2. symmetry. apply span_app. lia. }
      destruct (HN (S k)) as [N1 N2]. set (n1 := snd (stamps stamp ts (S k))) in *. destruct (IHB (S n1)) as [B1 B2]. split; [lia|].
      rewrite map_app, B2. unfold fb at 1. cbn [map hook_time]. rewrite map_app, N2. cbn [map hook_time].
      rewrite (span_app k (S n1)) by lia. f_equal. rewrite (span_S k (S n1)), (span_last (S k) n1) by lia. reflexivity. }
  destruct (HB (S n)) as [B1 B2]. split; [lia|]. rewrite map_app, B2. cbn [map hook_time].
  set (n1 := snd (stamps stamp_instr body (S n))) in *. rewrite (span_S n (S n1)), (span_last (S n) n1) by lia. reflexivity.
Qed.

Lemma stamp_times_ok t n d : (forall k, 0 <= tick k < kTicksNotMeasured) -> times_in d (fst (stamp t n)).
Proof.
  intros Ht. unfold times_in. rewrite <- (Forall_map hook_time (fun t => 0 <= t < kTicksNotMeasured)).
  rewrite (proj2 (stamp_times t n d)). unfold span. rewrite Forall_map. apply Forall_forall. intros k _. apply Ht.
Qed.
Lemma span_sorted n k : (forall i j, (i <= j)%nat -> tick i <= tick j) -> Sorted Z.le (map tick (seq n k)).
Proof.
  intros Ht. revert n. induction k; intros n; [constructor|]. cbn [seq map]. constructor; [apply IHk|].
  destruct k; cbn [seq map]; constructor. apply Ht. lia.
Qed.
Lemma stamp_clock t n : (forall i j, (i <= j)%nat -> tick i <= tick j) -> clock_ok (fst (stamp t n)).
Proof. intros Ht. unfold clock_ok. rewrite (proj2 (stamp_times t n 0)). apply span_sorted. exact Ht. Qed.

(** only calls have runs nested in them, and these stay within the depth limit *)
Lemma stamp_shape mode t : forall x x' n, k_effect tick (KProf mode) t x x' -> tree_depth t <= 1024 ->
  well_nested (fst (stamp t n)) /\ tree_depth t + height (fst (stamp t n)) <= 1024.
Proof.
  induction t as [m body IH] using tree_ind2. intros x x' n (a & b & _ & HC & _) Hd. cbn [tree_depth] in *. rewrite stamp_eq. cbn [fst].
  unfold well_nested. cbn [all_instrs height]. set (k := S n). clearbody k. clear n. revert a k HC.
  induction IH as [|[e ts] body Hi HB IHB]; intros a k HC.
  - cbn [stamps fst flat_map map fold_right]. split; [constructor|lia].
  - cbn [chain] in HC. destruct HC as (y & (Hcall & y1 & z & _ & HN & _) & HC). cbn [snd] in Hi.
    rewrite stamps_cons, stamp_instr_eq. cbn [fst snd flat_map map fold_right].
    set (n1 := snd (stamps stamp ts (S k))). destruct (IHB _ (S n1) HC) as [B1 B2].
    assert (HN2 : forall j, Forall well_nested (fst (stamps stamp ts j)) /\ msg_depth m + fold_right Z.max 0 (map (fun n => 1 + height n) (fst (stamps stamp ts j))) <= 1024).
    { clear Hcall n1 B1 B2 IHB HC. revert y1 HN. induction Hi as [|t ts Ht Hts IHts]; intros y1 HN j.
      - cbn [stamps fst map fold_right]. split; [constructor|lia].
      - cbn [chain] in HN. destruct HN as (y2 & (D1 & D2 & X1) & HN). rewrite stamps_cons. cbn [fst map fold_right].
        destruct (Ht _ _ j X1 D2) as [A1 A2]. destruct (IHts _ HN (snd (stamp t j))) as [C1 C2]. split; [constructor; assumption|lia]. }
    destruct (HN2 (S k)) as [N1 N2]. split; [|lia].
    constructor.
    + cbn [instr_op instr_nested fst snd]. intros hc. rewrite (Hcall hc). reflexivity.
    + apply Forall_app. split; [|exact B1]. rewrite Forall_flat_map. exact N1.
Qed.

(** ** Counts and times *)
Definition timing_of (i : instr_run) : timing := (opcode_value (instr_op i), own_ticks i).

Lemma in_turn_spec {A} (f : A -> nat -> list timing * Z * nat) l : forall n last,
  in_turn f l n last = (fst (fst (in_turn f l n last)), snd (fst (in_turn f l n last)), snd (in_turn f l n last)).
Proof. intros. destruct (in_turn f l n last) as [[? ?] ?]. reflexivity. Qed.
Lemma in_turn_cons {A} (f : A -> nat -> list timing * Z * nat) a l n last :
  in_turn f (a :: l) n last = (fst (fst (f a n)) ++ fst (fst (in_turn f l (snd (f a n)) (snd (fst (f a n))))),
    snd (fst (in_turn f l (snd (f a n)) (snd (fst (f a n))))), snd (in_turn f l (snd (f a n)) (snd (fst (f a n))))).
Proof. cbn [in_turn]. destruct (f a n) as [[ts d] n1]. cbn [fst snd]. destruct (in_turn f l n1 d) as [[ts' d'] n2]. reflexivity. Qed.

Definition timings_instr (i : event * list tree) (n : nat) : list timing * Z * nat :=
  let (e, runs) := i in
  let '(ts, d, n') := in_turn (timings tick) runs (S n) 0 in ((shown (ev_byte e), tick n' - tick n - d) :: ts, 0, S n').
Lemma timings_instr_eq e ts n : timings_instr (e, ts) n =
  ((shown (ev_byte e), tick (snd (in_turn (timings tick) ts (S n) 0)) - tick n - snd (fst (in_turn (timings tick) ts (S n) 0))) :: fst (fst (in_turn (timings tick) ts (S n) 0)),
   0, S (snd (in_turn (timings tick) ts (S n) 0))).
Proof. unfold timings_instr. destruct (in_turn (timings tick) ts (S n) 0) as [[? ?] ?]. reflexivity. Qed.
Lemma timings_eq m body n : timings tick (Tree m body) n =
  (fst (fst (in_turn timings_instr body (S n) 0)), tick (snd (in_turn timings_instr body (S n) 0)) - tick n, S (snd (in_turn timings_instr body (S n) 0))).
Proof.
  change (timings tick (Tree m body) n) with (let '(ts, _, n') := in_turn timings_instr body (S n) 0 in (ts, tick n' - tick n, S n')).
  destruct (in_turn timings_instr body (S n) 0) as [[? ?] ?]. reflexivity.
Qed.

Definition last_time (ns : list run) (d : Z) : Z := match rev ns with n :: _ => run_stop n - run_start n | [] => d end.
Lemma last_time_cons n ns d : last_time (n :: ns) d = last_time ns (run_stop n - run_start n).
Proof. unfold last_time. cbn [rev]. destruct (rev ns); reflexivity. Qed.

Lemma stamp_timings t : forall n, timings tick t n =
  (map timing_of (all_instrs (fst (stamp t n))), run_stop (fst (stamp t n)) - run_start (fst (stamp t n)), snd (stamp t n)).
Proof.
  induction t as [m body IH] using tree_ind2. intros n. rewrite stamp_eq, timings_eq. cbn [fst snd all_instrs run_stop run_start].
  set (fa := fun i : opcode * Z * list run * Z => i :: (let '(_, _, ns, _) := i in flat_map all_instrs ns)).
  assert (HB : forall k last, fst (fst (in_turn timings_instr body k last)) = map timing_of (flat_map fa (fst (stamps stamp_instr body k))) /\
    snd (in_turn timings_instr body k last) = snd (stamps stamp_instr body k)).
  { induction IH as [|[e ts] body Hi HB IHB]; intros k last; [split; reflexivity|].
    rewrite in_turn_cons, stamps_cons, timings_instr_eq, stamp_instr_eq. cbn [fst snd flat_map].
    assert (HN : forall j last, in_turn (timings tick) ts j last =
      (map timing_of (flat_map all_instrs (fst (stamps stamp ts j))), last_time (fst (stamps stamp ts j)) last, snd (stamps stamp ts j))).
    { cbn [snd] in Hi. clear - Hi. induction Hi as [|t ts Ht Hts IHts]; intros j last; [reflexivity|].
      rewrite in_turn_cons, stamps_cons, Ht. cbn [fst snd]. rewrite IHts. cbn [fst snd flat_map]. rewrite map_app, last_time_cons. reflexivity. }
    rewrite HN. cbn [fst snd]. destruct (IHB (S (snd (stamps stamp ts (S k)))) 0) as [B1 B2]. rewrite B1, B2. split; [|reflexivity].
    unfold fa at 2. rewrite map_app. f_equal. cbn [map]. f_equal. unfold timing_of, own_ticks, instr_time. cbn [instr_op instr_nested fst snd].
    rewrite op_shown. reflexivity. }
  destruct (HB (S n) 0) as [-> ->]. reflexivity.
Qed.
Lemma stamp_ops t : forall n, map instr_op (all_instrs (fst (stamp t n))) = map (fun e => op_of (ev_byte e)) (flat t).
Proof.
  induction t as [m body IH] using tree_ind2. intros n. rewrite stamp_eq. cbn [fst snd all_instrs flat].
  set (k := S n). clearbody k. revert k. induction IH as [|[e ts] body Hi HB IHB]; intros k; [reflexivity|].
  rewrite stamps_cons, stamp_instr_eq. cbn [fst snd flat_map]. rewrite !map_app, IHB. f_equal. cbn [map instr_op fst]. f_equal.
  cbn [snd] in Hi. generalize (S k). clear - Hi. induction Hi as [|t ts Ht Hts IHts]; intros j; [reflexivity|].
  rewrite stamps_cons. cbn [fst snd flat_map]. rewrite !map_app, Ht, IHts. reflexivity.
Qed.
Lemma filter_map_zlen {A B} (f : A -> B) (p : B -> bool) l : zlen (filter p (map f l)) = zlen (filter (fun a => p (f a)) l).
Proof. induction l as [|a l IH]; [reflexivity|]. cbn [map filter]. destruct (p (f a)); [|exact IH]. unfold zlen in *. cbn [length]. lia. Qed.

Lemma stamp_count mode b t n : icount mode b (all_instrs (fst (stamp t n))) = executions mode b t.
Proof.
  unfold icount, executions, sel. rewrite <- (filter_map_zlen instr_op (fun o => measured mode o && (opcode_value o =? b))), stamp_ops.
  rewrite (filter_map_zlen (fun e => op_of (ev_byte e)) (fun o => measured mode o && (opcode_value o =? b))).
  f_equal. apply filter_ext. intros e. rewrite op_measured, op_shown. reflexivity.
Qed.
Lemma stamp_ticks mode b t n : iticks mode b (all_instrs (fst (stamp t n))) = time_in tick mode b t n.
Proof.
  unfold iticks, time_in. rewrite stamp_timings. cbn [fst].
  assert (X : forall i, In i (all_instrs (fst (stamp t n))) -> measured mode (instr_op i) = profiled mode (opcode_value (instr_op i))).
  { intros i Hi. apply (in_map instr_op) in Hi. rewrite stamp_ops in Hi. apply in_map_iff in Hi as (e & Ee & _). rewrite <- Ee, op_measured, op_shown. reflexivity. }
  revert X. generalize (all_instrs (fst (stamp t n))). intros l. induction l as [|i l IH]; intros X; [reflexivity|].
  cbn [map filter]. unfold sel at 1, timing_of at 1. cbn [fst]. rewrite (X i (or_introl eq_refl)). fold (timing_of i).
  specialize (IH (fun i h => X i (or_intror h))). unfold zsum, total in *.
  destruct (profiled mode (opcode_value (instr_op i)) && _); cbn [map fold_right]; rewrite IH; reflexivity.
Qed.
End Stamp2.
