(** Properties C85-C88: the generators of the conformance tests produce what they are asked for. *)
From Verif Require Import Base Host GoStorage CtSolve SpecSolve CtSolveFacts CtGen SpecGen CtStackFacts CtStorageFacts CtGenTerm CtTransientFacts.
From Coq Require Import Permutation.

(** C85: a RangeSolver fails exactly if no value obeys all constraints, returns only values
    that obey them, and can return each such value. *)
Theorem C85_range_solver : forall T min max cs,
  suitable T -> in_type T min -> in_type T max -> Forall (typed T) cs -> Forall bounds cs ->
  generates (fun r => RangeGenerate T r (range_solver min max cs)) (solution min max cs) /\
  (RangeIsSatisfiable (range_solver min max cs) = true <-> exists v, solution min max cs v).
Proof. exact (@range_solver_correct). Qed.
Print Assumptions C85_range_solver.

(** The same for an IntervalSolver, which also supports the exclusion of intervals; its
    Contains is membership in the set of solutions. *)
Theorem C85_interval_solver : forall T min max cs,
  suitable T -> in_type T min -> in_type T max -> Forall (typed T) cs ->
  generates (fun r => Generate T r (interval_solver T min max cs)) (solution min max cs) /\
  (IsSatisfiable (interval_solver T min max cs) = true <-> exists v, solution min max cs v) /\
  (forall v, Contains (interval_solver T min max cs) v = true <-> solution min max cs v).
Proof. exact (@interval_solver_correct). Qed.
Print Assumptions C85_interval_solver.

(** Non-vacuity: uint64 block numbers with an excluded interval; and a full domain. *)
Example C85_example : suitable tUint64 /\ Forall (typed tUint64) [Outside 10 20; AtLeast 5; AtMost (2 ^ 64 - 2)] /\
  interval_solver tUint64 0 (2 ^ 64 - 1) [Outside 10 20; AtLeast 5; AtMost (2 ^ 64 - 2)] = [mkInt 5 9; mkInt 21 (2 ^ 64 - 2)] /\
  solution 0 (2 ^ 64 - 1) [Outside 10 20; AtLeast 5; AtMost (2 ^ 64 - 2)] 21 /\
  Generate tUint64 (mkRandom (fun _ => 5) 0) [mkInt 5 9; mkInt 21 (2 ^ 64 - 2)] = Value 21 /\
  Generate tUint64 (mkRandom (fun _ => 0) 77) (interval_solver tUint64 0 (2 ^ 64 - 1) []) = Value 77.
Proof.
  split; [split; [cbn; lia|left; reflexivity]|]. split; [repeat constructor; cbn; unfold it_min, it_max; cbn; lia|]. split; [vm_compute; reflexivity|].
  split; [split; [lia|repeat constructor; cbn; lia]|]. split; vm_compute; reflexivity.
Qed.
Example C85_example_unsatisfiable : RangeGenerate tInt (mkRandom (fun _ => 0) 0) (range_solver 0 1024 [AtLeast 5; AtMost 4]) = Unsatisfiable.
Proof. reflexivity. Qed.

(** For narrow signed types the solvers generate values outside of the bounds: the
    differences are computed in the type and wrap. *)
Theorem C85_narrow_types_refuted :
  (exists r v, proper r /\ RangeGenerate tInt8 r (range_solver (-128) 0 []) = Value v /\ ~ solution (-128) 0 [] v) /\
  (exists r v, proper r /\ Generate tInt8 r (interval_solver tInt8 (-127) 127 []) = Value v /\ ~ solution (-127) 127 [] v).
Proof.
  split.
  - exists (mkRandom (fun n => if n >? 200 then 200 else 0) 0), 72. split; [split; cbn; [intros n hn; destruct (Z.gtb_spec n 200); lia|lia]|]. split; [vm_compute; reflexivity|]. intros [h _]. lia.
  - exists (mkRandom (fun n => if n >? 255 then 255 else 0) 0), (-128). split; [split; cbn; [intros n hn; destruct (Z.gtb_spec n 255); lia|lia]|]. split; [vm_compute; reflexivity|]. intros [h _]. lia.
Qed.
Print Assumptions C85_narrow_types_refuted.

(** C86: whatever was requested before, with whatever random numbers and previous content
    of the pooled stack, a generated stack fulfils all requests; an error means that a
    variable is unbound, or that no stack fulfils the requests (or a position is described
    by a variable and once more); and Generate does not panic. *)
Theorem C86_stack_generator : forall qs a old, Forall stack_request_ok qs -> 1024 <= zlen old ->
  forall r fill, proper r ->
  match StackGenerate r fill old a (stack_generator qs) with
  | Generated l => stack_fits a qs l
  | ErrUnsatisfiable => forall l, stack_fits a qs l -> described_twice qs
  | ErrUnboundVariable => exists p x, In (HoldsVar p x) qs /\ a x = None
  | Panics | Running => False
  end.
Proof. exact (@stack_generate_sound). Qed.
Print Assumptions C86_stack_generator.

(** Every stack that fulfils the requests can be generated. *)
Theorem C86_stack_generator_complete : forall qs a old, Forall stack_request_ok qs -> 1024 <= zlen old ->
  forall l, stack_fits a qs l -> ~ described_twice qs -> exists r fill, proper r /\ StackGenerate r fill old a (stack_generator qs) = Generated l.
Proof. exact (@stack_generate_complete). Qed.
Print Assumptions C86_stack_generator_complete.

Example C86_example : let qs := [MinSize 3; Holds 0 7; Ran (fun _ => None); HoldsVar 2 1; MaxSize 9] in let a := fun x => if x =? 1 then Some 42 else None in
  Forall stack_request_ok qs /\ stack_fits a qs [7; 5; 42; 6] /\ ~ described_twice qs /\
  StackGenerate (mkRandom (fun _ => 1) 0) (fun i => Z.of_nat i + 100) (repeat 99 1024) a (stack_generator qs) = Generated [7; 101; 42; 103].
Proof.
  cbv zeta. split; [repeat constructor; cbn; lia|]. split; [|split].
  - split; [cbn; lia|]. repeat constructor; cbn; try lia. exists 42. split; reflexivity.
  - intros (p & x & h1 & h2). cbn in h1, h2.
    repeat match goal with h : _ \/ _ |- _ => destruct h as [h|h] | h : False |- _ => destruct h | h : exists _, _ |- _ => destruct h as (? & h) | h : _ /\ _ |- _ => destruct h | h : @eq stack_request _ _ |- _ => first [discriminate h|injection h as ? ?; subst] end; congruence.
  - vm_compute. reflexivity.
Qed.

(** A position described by a value and by a variable bound to the same value is rejected
    although a stack exists, and so is one described by two variables. *)
Theorem C86_described_twice_refuted :
  exists qs a l, Forall stack_request_ok qs /\ stack_fits a qs l /\
    forall r fill old, 1024 <= zlen old -> StackGenerate r fill old a (stack_generator qs) = ErrUnsatisfiable \/ ~ proper r.
Proof.
  exists [Holds 0 5; HoldsVar 0 1; Size 1], (fun _ => Some 5), [5]. split; [repeat constructor; cbn; lia|]. split; [split; [cbn; lia|repeat constructor; cbn; eauto]|].
  intros r fill old ho. unfold StackGenerate. cbn [stack_generator fold_left stack_request_call SetSize SetValue BindValue NewStackGenerator sg_const sg_var sg_size has_pair existsb app resolve].
  change (RangeGenerate tInt r _) with (Value (conv tInt (conv tInt (Uint64n r 1) + 1))).
  destruct (Z.eq_dec (Uint64n r 1) 0) as [e|e].
  - rewrite e. change (conv tInt (conv tInt 0 + 1)) with 1. left. replace ((1 <? 0) || (1 >? zlen old)) with false by (symmetry; apply orb_false_iff; lia).
    unfold zlen in ho. destruct old as [|x old]; [cbn in ho; lia|]. reflexivity.
  - right. intros [h _]. specialize (h 1 ltac:(lia)). lia.
Qed.
Print Assumptions C86_described_twice_refuted.

(** The largest int as a position makes Generate panic (its successor overflows). *)
Theorem C86_largest_position_refuted :
  exists r fill old, proper r /\ 1024 <= zlen old /\ StackGenerate r fill old (fun _ => None) (stack_generator [Holds (2 ^ 63 - 1) 5]) = Panics.
Proof. exists (mkRandom (fun _ => 0) 0), (fun _ => 0), (repeat 0 1024). split; [split; cbn; intros; lia|]. split; [unfold zlen; rewrite repeat_length; lia|].
  unfold StackGenerate. cbn [stack_generator fold_left stack_request_call SetValue NewStackGenerator sg_const sg_var sg_size has_pair existsb app resolve].
  change (RangeGenerate tInt _ _) with (Value 0). cbv iota beta.
  replace ((0 <? 0) || (0 >? zlen (repeat 0 1024))) with false by (unfold zlen; rewrite repeat_length; reflexivity). cbv iota.
  change (Z.to_nat 0) with 0%nat. cbn [firstn repeat apply_values]. change (2 ^ 63 - 1 <? 0) with false. cbv iota. replace (znth (@nil bool) (2 ^ 63 - 1)) with (@None bool) by (unfold znth; destruct (2 ^ 63 - 1 <? 0); [reflexivity|destruct (Z.to_nat (2 ^ 63 - 1)); reflexivity]). reflexivity.
Qed.
Print Assumptions C86_largest_position_refuted.

(** C87: a generated storage fulfils all requests: writing the value of the variable to the
    slot has the requested status, and slots are warm and cold as requested. *)
Theorem C87_storage_generator : forall rnd fuel a qs st b, one_config qs -> separate a qs -> values_not_keys a qs ->
  StorageGenerate rnd fuel a (storage_generator qs) = Generated (st, b) -> extends a b /\ Forall (storage_fulfils b st) qs.
Proof. exact (@storage_generate_sound). Qed.
Print Assumptions C87_storage_generator.

(** The generator reports an error only if the requests are in conflict. *)
Theorem C87_storage_errors : forall rnd fuel a qs, values_not_keys a qs ->
  match StorageGenerate rnd fuel a (storage_generator qs) with
  | Generated _ | Running => True
  | ErrUnsatisfiable => storage_conflict a qs
  | ErrUnboundVariable | Panics => False
  end.
Proof. exact (@storage_generate_error). Qed.
Print Assumptions C87_storage_errors.

(** It terminates. *)
Theorem C87_storage_terminates : forall rnd, fair rnd -> forall a qs, 2 * zlen qs < 2 ^ 63 ->
  exists F, forall f, (F <= f)%nat -> StorageGenerate rnd f a (storage_generator qs) <> Running.
Proof. exact (@storage_generate_terminates). Qed.
Print Assumptions C87_storage_terminates.

Definition counting (n : nat) : Z := Z.of_nat n mod 2 ^ 256.
Example C87_fair : fair counting.
Proof. exact counting_fair. Qed.

Definition C87_requests : list storage_request := [Config S_MODIFIED 1 2; Warm 1; Cold 3; Config S_DELETED 4 5; Config S_MODIFIED_RESTORED 6 2].
Definition C87_bound : Assignment := fun x => if x =? 4 then Some 100 else None.
Example C87_example : one_config C87_requests /\ separate C87_bound C87_requests /\ values_not_keys C87_bound C87_requests /\
  match StorageGenerate counting 10 C87_bound (storage_generator C87_requests) with
  | Generated (st, b) => b 4 = Some 100 /\ b 5 = Some 0 /\ b 1 = Some 2 /\ b 2 = Some 3 /\ s_warm st 2 = true /\ read (s_current st) 2 = 4 /\ read (s_original st) 2 = 4
  | _ => False
  end.
Proof.
  split; [|split; [|split]].
  - intros s x y s' y' h1 h2. cbn in h1, h2. repeat match goal with h : _ \/ _ |- _ => destruct h as [h|h] | h : False |- _ => destruct h end; try discriminate; inversion h1; subst; inversion h2; subst; auto.
  - split; intros; cbn in *; unfold C87_bound in *; repeat match goal with h : _ \/ _ |- _ => destruct h as [h|h] | h : False |- _ => destruct h end;
      repeat match goal with h : @eq storage_request _ _ |- _ => first [discriminate h|injection h; intros; subst; clear h] end; try discriminate; try congruence.
  - intros s x y q h1 h2 h3. cbn in h1, h3. repeat match goal with h : _ \/ _ |- _ => destruct h as [h|h] | h : False |- _ => destruct h end;
      repeat match goal with h : @eq storage_request _ _ |- _ => first [discriminate h|injection h; intros; subst; clear h] end; subst; cbn; try lia; try (intros; discriminate).
  - vm_compute. repeat split.
Qed.

(** Conflicting configurations of one key are missed if they are not neighbours in the
    order by status. *)
Theorem C87_missed_conflict_refuted :
  exists rnd qs st b, separate (fun _ => None) qs /\ values_not_keys (fun _ => None) qs /\
    StorageGenerate rnd 10 (fun _ => None) (storage_generator qs) = Generated (st, b) /\ ~ Forall (storage_fulfils b st) qs.
Proof.
  exists (fun n => Z.of_nat n + 7), [Config S_ADDED 1 10; Config S_ADDED 2 11; Config S_MODIFIED 1 12].
  destruct (StorageGenerate (fun n => Z.of_nat n + 7) 10 (fun _ => None) (storage_generator [Config S_ADDED 1 10; Config S_ADDED 2 11; Config S_MODIFIED 1 12])) as [[st b]| | | |] eqn:e;
    [|vm_compute in e; discriminate e|vm_compute in e; discriminate e|vm_compute in e; discriminate e|vm_compute in e; discriminate e].
  exists st, b. split; [split; intros; discriminate|]. split.
  - intros s x y q h1 _ h3. cbn in h1, h3. repeat match goal with h : _ \/ _ |- _ => destruct h as [h|h] | h : False |- _ => destruct h end; inversion h1; subst; cbn; lia.
  - split; [reflexivity|]. intros hf. rewrite Forall_forall in hf. specialize (hf (Config S_ADDED 1 10) (or_introl eq_refl)). cbn [storage_fulfils] in hf. destruct hf as (k & v & h1 & h2 & h3).
    vm_compute in e. injection e as <- <-. vm_compute in h1, h2. injection h1 as <-. injection h2 as <-. vm_compute in h3. discriminate h3.
Qed.
Print Assumptions C87_missed_conflict_refuted.

(** Two key variables bound to the same slot overwrite each other's configuration. *)
Theorem C87_same_slot_refuted :
  exists rnd a qs st b, one_config qs /\ values_not_keys a qs /\
    StorageGenerate rnd 10 a (storage_generator qs) = Generated (st, b) /\ ~ Forall (storage_fulfils b st) qs.
Proof.
  set (a := fun x => if x <? 3 then Some 100 else None).
  exists (fun n => Z.of_nat n + 7), a, [Config S_ADDED 1 10; Config S_MODIFIED 2 11].
  destruct (StorageGenerate (fun n => Z.of_nat n + 7) 10 a (storage_generator [Config S_ADDED 1 10; Config S_MODIFIED 2 11])) as [[st b]| | | |] eqn:e;
    [|vm_compute in e; discriminate e|vm_compute in e; discriminate e|vm_compute in e; discriminate e|vm_compute in e; discriminate e].
  exists st, b. split.
  - intros s x y s' y' h1 h2. cbn in h1, h2. repeat match goal with h : _ \/ _ |- _ => destruct h as [h|h] | h : False |- _ => destruct h end; inversion h1; subst; inversion h2; subst; auto.
  - split.
    + intros s x y q h1 _ h3. cbn in h1, h3. repeat match goal with h : _ \/ _ |- _ => destruct h as [h|h] | h : False |- _ => destruct h end; inversion h1; subst; cbn; lia.
    + split; [reflexivity|]. intros hf. rewrite Forall_forall in hf. specialize (hf (Config S_ADDED 1 10) (or_introl eq_refl)). cbn [storage_fulfils] in hf. destruct hf as (k & v & h1 & h2 & h3).
      vm_compute in e. injection e as <- <-. vm_compute in h1, h2. injection h1 as <-. injection h2 as <-. vm_compute in h3. discriminate h3.
Qed.
Print Assumptions C87_same_slot_refuted.

(** C88: for every iteration order of the map of constraints, the locations in a generated
    transient storage are zero as requested, and non-zero as requested provided that no
    random number is zero. *)
Theorem C88_transient_generator : forall rnd a qs order, Permutation order (t_constraints (transient_generator qs)) ->
  forall fuel st b, TransientGenerate rnd fuel order a (transient_generator qs) = Generated (st, b) ->
  extends a b /\ forall q, In q qs -> (forall n, rnd n <> 0) \/ (exists x, q = Zero x) -> transient_fulfils b st q.
Proof. exact (@transient_sound). Qed.
Print Assumptions C88_transient_generator.

(** An error means that no transient storage fulfils the requests, or that a variable bound
    to zero was confused with an unbound one. *)
Theorem C88_transient_errors : forall rnd a qs order, Permutation order (t_constraints (transient_generator qs)) ->
  forall fuel, match TransientGenerate rnd fuel order a (transient_generator qs) with
  | Generated _ | Running => True
  | ErrUnsatisfiable => transient_impossible a qs \/ transient_confused a qs
  | ErrUnboundVariable | Panics => False
  end.
Proof. exact (@transient_error). Qed.
Print Assumptions C88_transient_errors.

Theorem C88_transient_terminates : forall rnd a qs order, Permutation order (t_constraints (transient_generator qs)) ->
  fair rnd -> zlen qs < 2 ^ 61 -> exists F, forall f, (F <= f)%nat -> TransientGenerate rnd f order a (transient_generator qs) <> Running.
Proof. exact (@transient_terminates). Qed.
Print Assumptions C88_transient_terminates.

Example C88_example : let qs := [NonZero 1; Zero 2; NonZero 1; Zero 3] in
  match TransientGenerate (fun n => Z.of_nat n + 7) 20 [(2, false); (3, false); (1, true)] (fun x => if x =? 1 then Some 100 else None) (transient_generator qs) with
  | Generated (st, b) => b 1 = Some 100 /\ b 2 = Some 7 /\ read st 100 = 9 /\ read st 7 = 0
  | _ => False
  end /\ Permutation [(2, false); (3, false); (1, true)] (t_constraints (transient_generator qs)).
Proof.
  cbv zeta. split; [vm_compute; repeat split|]. change (t_constraints _) with [(1, true); (2, false); (3, false)].
  apply Permutation_sym. apply (perm_trans (l' := [(2, false); (1, true); (3, false)])); [apply perm_swap|]. apply perm_skip, perm_swap.
Qed.

(** Random zeros violate a request for a non-zero location; and the confusion of unbound
    variables with zero rejects requests that can be fulfilled. *)
Theorem C88_zero_refuted :
  (exists rnd st b, TransientGenerate rnd 20 [(1, true)] (fun _ => None) (transient_generator [NonZero 1]) = Generated (st, b) /\ ~ transient_fulfils b st (NonZero 1)) /\
  (exists a qs order b st, Permutation order (t_constraints (transient_generator qs)) /\ extends a b /\ Forall (transient_fulfils b st) qs /\
     forall rnd fuel, TransientGenerate rnd fuel order a (transient_generator qs) = ErrUnsatisfiable).
Proof.
  split.
  - exists (fun _ => 0).
    destruct (TransientGenerate (fun _ => 0) 20 [(1, true)] (fun _ => None) (transient_generator [NonZero 1])) as [[st b]| | | |] eqn:e;
      [|vm_compute in e; discriminate e|vm_compute in e; discriminate e|vm_compute in e; discriminate e|vm_compute in e; discriminate e].
    exists st, b. split; [reflexivity|]. intros (k & h1 & h2). vm_compute in e. injection e as <- <-. vm_compute in h1. injection h1 as <-. apply h2. reflexivity.
  - exists (fun x => if x =? 1 then Some 0 else None), [NonZero 1; Zero 2], [(1, true); (2, false)], (fun x => if x =? 1 then Some 0 else Some 9), (fun k => if k =? 0 then Some 5 else None).
    split; [apply Permutation_refl|]. split; [intros x v; destruct (x =? 1); [auto|discriminate]|]. split; [|intros; reflexivity].
    repeat constructor; cbn; [exists 0|exists 9]; split; try reflexivity. discriminate.
Qed.
Print Assumptions C88_zero_refuted.
