(** C94: the generator of states (go/ct/gen/state.go). *)
From Verif Require Import Base Host GoStorage CtSolve SpecSolve CtGen SpecGen CtCodeGen SpecCode CtCodeGenFacts2 CtContext SpecContext CtAccounts SpecAccounts CtState SpecState CtStateFacts CtStateFacts2 CtStateFacts3 CtStateFacts4.
From Coq Require Import Lia ZArith List Bool Permutation.
Import ListNotations.
Open Scope Z_scope.

(** A generated state is valid and fulfils each request, under the values of the variables, which are those bound before and more; the
    exceptions are those of [missed]. *)
Theorem C94_state : forall d fuel a qs, proper_draws d qs -> fresh_addresses d a qs -> words a -> Forall state_request_ok qs ->
  forall s b, StateGenerate d fuel a (state_generator qs) = Generated (s, b) ->
  state_valid s /\ Forall (fun q => state_fulfils b s q \/ missed b s qs q) qs /\
  forall x v, a x = Some v -> b x = Some v \/ In (CodeHas (CodeVar x)) qs \/ In (CodeHas (DataVar x)) qs \/ In (SelfVar x) qs /\ 2 ^ 160 <= v.
Proof. exact state_sound. Qed.

(** The generator does not panic; it reports a variable as unbound only if one is, and requests as unsatisfiable only if they are, or if
    there are requests for the other generators (which report them by C86-C93). *)
Theorem C94_errors : forall d fuel a qs, proper_draws d qs -> fresh_addresses d a qs -> words a -> Forall state_request_ok qs ->
  Forall position_ok (codes qs) -> zlen qs < 2 ^ 49 -> values_not_keys (fun _ => None) (storages qs) ->
  match StateGenerate d fuel a (state_generator qs) with
  | Generated _ | Running => True
  | ErrUnsatisfiable => (exists q, In q qs /\ ~ plain q) \/ forall s b, state_valid s -> extends a b -> ~ Forall (state_fulfils b s) qs
  | ErrUnboundVariable => exists x, (In (PcVar x) qs \/ exists p, In (StackHas (HoldsVar p x)) qs) /\ a x = None /\ forall v, ~ In (Bind x v) qs
  | Panics => False
  end.
Proof. exact state_errors. Qed.

(** *** Cases *)
Definition st_rnd (k : Z) : random := mkRandom (fun n => if k <? n then k else 0) 12.
Lemma st_proper k : 0 <= k -> proper (st_rnd k).
Proof. intros h. split; cbn; [|lia]. intros n hn. destruct (Z.ltb_spec k n); lia. Qed.
Definition st_draws (qs : list state_request) : draws :=
  mkDraws 3 (fun _ => 3) (fun i => i) 20 false 1 (st_rnd 50) (st_rnd 60) 4242 true (fun i => 100000 + Z.of_nat i mod 2 ^ 64) (fun i => 200000 + Z.of_nat i mod 2 ^ 64)
    (t_constraints (transient_generator (SpecState.transients qs)))
    (mkChoices (fun i => 2 ^ 100 + Z.of_nat i mod 2 ^ 100) (fun _ => 0) (fun _ => 12345) 2 (fun i => (Z.of_nat i + 7, Some [1; 2], true)) 99 (repeat 91 42))
    (fun _ => st_rnd 7) (tg_vars (tx_generator (blobs qs))) (tg_vars (tx_generator (blobs qs))) (st_rnd 99) (fun _ => st_rnd 8) (st_rnd 9)
    (bg_value (block_generator (blocks qs))) (bg_range (block_generator (blocks qs))) (bg_value (block_generator (blocks qs))) (bg_range (block_generator (blocks qs)))
    (st_rnd 1) (fun i => Z.of_nat i + 300) (repeat 0 1024).
Lemma st_draws_proper qs : proper_draws (st_draws qs) qs.
Proof.
  unfold proper_draws. cbn [st_draws d_gas d_refund d_stack d_block d_time d_tx d_ranges d_storage d_transient d_size d_accounts d_pool d_transient_order d_tx_order d_tx_order' d_values d_values' d_vars d_vars'].
  pose proof (fun i => Z.mod_pos_bound (Z.of_nat i) (2 ^ 64) ltac:(lia)) as hm.
  repeat split; try apply Permutation_refl; try (apply st_proper; lia); try (specialize (hm i); lia); try (unfold is_word; cbn; lia); try lia.
Qed.
Definition st_requests : list state_request :=
  [Bind 5 77; HasStatus 0; InMode true; PcVar 1; GasIs (SpecSolve.AtLeast 100); RefundIs (SpecSolve.Exactly (-3)); SelfVar 2; CodeHas (OpVar 1 0x55);
   StackHas (HoldsVar 0 3); StackHas (HoldsVar 1 5); StackHas (HoldsVar 2 2); StorageHas (Config S_MODIFIED 3 4); StorageHas (Warm 3); TransientHas (NonZero 6); AccountsHave (WarmAt 7); AccountsHave (NonEmpty 2);
   BlockHas (Revisions 1 2); BlobsHave (Present 8); IsDestructed false].
Lemma st_fresh qs : (forall v, ~ In (SelfIs v) qs) -> (forall x v, In (Bind x v) qs -> v < 2 ^ 99 \/ v = 2 ^ 160 + 5) -> Forall state_request_ok qs -> fresh_addresses (st_draws qs) (fun _ => None) qs.
Proof.
  intros h1 h2 hok i v hv. cbn [st_draws d_accounts ch_address d_self d_storage d_transient] in *.
  pose proof (Z.mod_pos_bound (Z.of_nat i) (2 ^ 100) ltac:(lia)) as hi. rewrite (Z.mod_small (2 ^ 100 + _)) by lia.
  assert (0 <= v < 2 ^ 99 \/ v = 2 ^ 160 + 5) as [hb| ->].
  { destruct hv as [h|[h|[h|[(x & h)|[(x & h)|[(j & h)|(j & h)]]]]]]; [lia|destruct (h1 v h)|lia|discriminate| | |].
    - pose proof (h2 x v h). rewrite Forall_forall in hok. pose proof (hok _ h) as hw. cbn in hw. unfold is_word in hw. lia.
    - pose proof (Z.mod_pos_bound (Z.of_nat j) (2 ^ 64) ltac:(lia)). lia.
    - pose proof (Z.mod_pos_bound (Z.of_nat j) (2 ^ 64) ltac:(lia)). lia. }
  - rewrite (Z.mod_small v) by lia. lia.
  - rewrite <- (Z.add_mod_idemp_l (2 ^ 160)), Z_mod_same_full, Z.add_0_l, (Z.mod_small 5) by lia. lia.
Qed.
Example C94_case : proper_draws (st_draws st_requests) st_requests /\ fresh_addresses (st_draws st_requests) (fun _ => None) st_requests /\ Forall state_request_ok st_requests /\
  Forall position_ok (codes st_requests) /\ zlen st_requests < 2 ^ 49 /\ values_not_keys (fun _ => None) (storages st_requests) /\
  match StateGenerate (st_draws st_requests) 10 (fun _ => None) (state_generator st_requests) with
  | Generated (s, b) => s_status s = 0 /\ s_readOnly s = true /\ b 1 = Some (s_pc s) /\ nth (Z.to_nat (s_pc s)) (s_code s) 0 = 0x55 /\ s_gas s = 150 /\ s_refund s = -3 /\ s_self s = 4242 /\ b 2 = Some 4242 /\
      b 3 = Some 100000 /\ b 5 = Some 77 /\ firstn 3 (s_stack s) = [100000; 77; 4242] /\ s_warm (s_storage s) 100000 = true /\ IsWarm (s_accounts s) (2 ^ 100) = true /\ b 7 = Some (2 ^ 100) /\
      s_revision s = 1 /\ s_block s = 1099 /\ s_destructed s = false /\ s_blobs s = 1 /\ b 8 = Some 0
  | _ => False
  end.
Proof.
  split; [apply st_draws_proper|]. assert (hok : Forall state_request_ok st_requests).
  { repeat constructor; cbn; unfold is_word, it_min, it_max, in_type; cbn; try lia. }
  split; [apply st_fresh; [|intros x v h|exact hok]|].
  - intros v h. cbn in h. repeat (destruct h as [h|h]; [discriminate h|]). exact h.
  - left. cbn in h. destruct h as [h|h]; [injection h as <- <-; lia|]. repeat (destruct h as [h|h]; [discriminate h|]). destruct h.
  - split; [exact hok|]. split; [repeat constructor|]. split; [unfold zlen; cbn; lia|]. split.
    + intros s x y q h _ h2. cbn in h. destruct h as [h|[h|[]]]; [injection h as <- <- <-|discriminate h]. cbn in h2. destruct h2 as [<-|[<-|[]]]; cbn; discriminate.
    + vm_compute. repeat split; reflexivity.
Qed.
Example C94_conflicts :
  StateGenerate (st_draws [HasStatus 0; HasStatus 1]) 10 (fun _ => None) (state_generator [HasStatus 0; HasStatus 1]) = ErrUnsatisfiable /\
  StateGenerate (st_draws [Bind 1 3; PcVar 1; PcIs 4]) 10 (fun _ => None) (state_generator [Bind 1 3; PcVar 1; PcIs 4]) = ErrUnsatisfiable /\
  StateGenerate (st_draws [Bind 1 3; SelfVar 1; SelfIs 4]) 10 (fun _ => None) (state_generator [Bind 1 3; SelfVar 1; SelfIs 4]) = ErrUnsatisfiable /\
  StateGenerate (st_draws [GasIs (SpecSolve.AtLeast 500000000001)]) 10 (fun _ => None) (state_generator [GasIs (SpecSolve.AtLeast 500000000001)]) = ErrUnsatisfiable /\
  StateGenerate (st_draws [IsDestructed true; IsDestructed false]) 10 (fun _ => None) (state_generator [IsDestructed true; IsDestructed false]) = ErrUnsatisfiable /\
  StateGenerate (st_draws [PcVar 1]) 10 (fun _ => None) (state_generator [PcVar 1]) = ErrUnboundVariable.
Proof. repeat split; vm_compute; reflexivity. Qed.
(** A variable bound to a value longer than an address, and to the own address: the requests contradict each other, but there is a state,
    and the value of the variable is changed. *)
Example C94_long_address_refuted : let qs := [Bind 1 (2 ^ 160 + 5); SelfVar 1] in
  (forall s b, state_valid s -> ~ Forall (state_fulfils b s) qs) /\
  exists s b, StateGenerate (st_draws qs) 10 (fun _ => None) (state_generator qs) = Generated (s, b) /\ b 1 = Some 5.
Proof.
  cbv zeta. split.
  - intros s b hv hf. rewrite !Forall_cons_iff in hf. destruct hf as (h1 & h2 & _). cbn [state_fulfils] in h1, h2. destruct hv as (_ & _ & _ & _ & _ & _ & hs & _). assert (s_self s = 2 ^ 160 + 5) by congruence. lia.
  - eexists _, _. split; [vm_compute; reflexivity|]. vm_compute. reflexivity.
Qed.
(** The value of a variable is lost if the code generator binds the variable again. *)
Example C94_rebound_refuted : let qs := [Bind 1 5; CodeHas (CodeVar 1)] in
  exists s b, StateGenerate (st_draws qs) 10 (fun _ => None) (state_generator qs) = Generated (s, b) /\ b 1 = Some 3.
Proof. cbv zeta. eexists _, _. split; [vm_compute; reflexivity|]. vm_compute. reflexivity. Qed.
Print Assumptions C94_state.
Print Assumptions C94_errors.
