(** C95: states that satisfy conditions (go/ct/rlz). *)
From Verif Require Import Base Host GoStorage CtRules CtSolve SpecSolve CtGen SpecGen CtCodeGen SpecCode CtContext SpecContext CtAccounts SpecAccounts CtState SpecState CtRestrict SpecRestrict CtRestrictFacts CtRestrictRules CtRestrictAgree PropsState.
From Coq Require Import Lia ZArith List Bool Permutation.
Import ListNotations.
Open Scope Z_scope.

(** A state generated from the restrictions of conditions satisfies them, but for the [excused]. *)
Theorem C95_conditions : forall d fuel cs, Forall cond_ok cs -> proper_draws d (asked_all cs) -> fresh_addresses d (fun _ => None) (asked_all cs) ->
  forall s b, GenerateSatisfyingState d fuel cs = Some (Generated (s, b)) -> Forall (fun c => Check s c = Some true \/ excused b s cs c) cs.
Proof. exact conditions_sound. Qed.
(** For each rule of the specification: there is no panic while restricting, and a generated state satisfies the condition of the rule,
    but for an empty account that is the executing one, and BLOCKHASH rules for the first 255 blocks. *)
Theorem C95_rules : forall tx keccak r, In r (getAllRules tx keccak) ->
  (forall d fuel, GenerateSatisfyingState d fuel (r_conditions r) <> None) /\
  forall d fuel, proper_draws d (asked_all (r_conditions r)) -> fresh_addresses d (fun _ => None) (asked_all (r_conditions r)) ->
  forall s b, GenerateSatisfyingState d fuel (r_conditions r) = Some (Generated (s, b)) -> Forall (fun c => Check s c = Some true \/ remains s (r_conditions r) c) (r_conditions r).
Proof. exact rules_sound. Qed.

(** Conditions are the same for the specification of instructions and for the generator: for a state of the specification that is
    the generated one, the condition of the rule holds (but for the exceptions). *)
Theorem C95_same_conditions : forall tx s t, represents tx s t -> forall c, Check t c = match check tx s c with Ok r => r | _ => None end.
Proof. intros tx s t h c. exact (checks_agree tx s t c h). Qed.
Theorem C95_specification : forall tx0 keccak r, In r (getAllRules tx0 keccak) ->
  forall d fuel, proper_draws d (asked_all (r_conditions r)) -> fresh_addresses d (fun _ => None) (asked_all (r_conditions r)) ->
  forall t b, GenerateSatisfyingState d fuel (r_conditions r) = Some (Generated (t, b)) -> (forall c, In c (r_conditions r) -> ~ remains t (r_conditions r) c) ->
  forall tx s, represents tx s t -> check_all tx s (r_conditions r) = Ok (Some true).
Proof. exact rules_agree. Qed.

(** *** Cases *)
Definition rs_conditions : list cond :=
  [AnyKnownRevision; CtRules.Running; OpIs 0x55; Cmp Ge EGas 100; Cmp Lt EGas 60000; ReadOnly false; Cmp Gt ESize 4; Cmp Ne (EParam 3) 7; StorageConfiguration S_ADDED p0 p1; IsStorageWarm p0;
   TransientZero (EParam 2); Cmp Le EBalanceOfSelf 1000; HasNotSelfDestructed].
Lemma rs_fresh : fresh_addresses (st_draws (asked_all rs_conditions)) (fun _ => None) (asked_all rs_conditions).
Proof.
  apply st_fresh.
  - intros v h. cbn in h. repeat (destruct h as [h|h]; [discriminate h|]). exact h.
  - intros x v h. cbn in h. repeat (destruct h as [h|h]; [discriminate h|]). destruct h.
  - destruct (RestrictAll rs_conditions NewStateGenerator) as [g|] eqn:e; [|vm_compute in e; discriminate e].
    eapply asked_all_ok; [|exact e]. apply Forall_forall. intros c hc. apply isfine_ok. revert c hc. apply forallb_forall. vm_compute. reflexivity.
Qed.
Example C95_case : Forall cond_ok rs_conditions /\ proper_draws (st_draws (asked_all rs_conditions)) (asked_all rs_conditions) /\ fresh_addresses (st_draws (asked_all rs_conditions)) (fun _ => None) (asked_all rs_conditions) /\
  match GenerateSatisfyingState (st_draws (asked_all rs_conditions)) 10 rs_conditions with
  | Some (Generated (s, b)) => forallb (fun c => match Check s c with Some v => v | None => false end) rs_conditions = true /\ s_gas s = 150 /\ 4 < zlen (s_stack s)
  | _ => False
  end.
Proof.
  split; [apply Forall_forall; intros c hc; apply isfine_ok; revert c hc; apply forallb_forall; vm_compute; reflexivity|]. split; [apply st_draws_proper|]. split; [exact rs_fresh|].
  vm_compute. repeat split; reflexivity.
Qed.
(** A state of the specification that a generated state represents: it satisfies the conditions. *)
Definition rs_world : ctw :=
  mkCtw [(100007, 100009); (100003, 100005); (100000, 0)] [(100007, 100008); (100003, 100004); (100000, 0)] [100000] [(200008, 200009); (200005, 200006); (200002, 200003)]
    [(4242, (333, repeat 91 42)); (2 ^ 100 + 1, (8, [1; 2])); (2 ^ 100, (7, [1; 2]))] [2 ^ 100 + 1; 2 ^ 100] [] [] [] false [] [].
Definition rs_state : CtRules.state :=
  Ct.mkCt Ct.CtRunning 0 false 3 150 (-499999999940) [0; 1; 2; 85; 4; 5; 6; 7; 8; 9; 10; 11; 12; 13; 14; 15; 16; 17; 18; 19; 20] (rev [100000; 100001; 200000; 8; 304; 305; 306]) [] 4242 0 0 [] [] [] rs_world.
Definition rs_tx : tx_context := mkTx 0 0 0 99 9 0 0 0 0 0 [0].
Example C95_specification_case : exists t b, GenerateSatisfyingState (st_draws (asked_all rs_conditions)) 10 rs_conditions = Some (Generated (t, b)) /\ represents rs_tx rs_state t /\
  check_all rs_tx rs_state rs_conditions = Ok (Some true).
Proof.
  eexists _, _. split; [vm_compute; reflexivity|]. split; [|vm_compute; reflexivity].
  unfold represents. cbv zeta. repeat (split; [reflexivity|]).
  repeat split; intros k.
  all: destruct k as [|p|p]; try reflexivity; repeat (destruct p as [p|p|]; try reflexivity).
Qed.
(** The number of rules of the specification for which a state is generated, with these draws, and satisfies all conditions. *)
Definition rs_generated (r : rule) : bool :=
  match GenerateSatisfyingState (st_draws (asked_all (r_conditions r))) 10 (r_conditions r) with
  | Some (Generated (s, b)) => forallb (fun c => match Check s c with Some v => v | None => false end) (r_conditions r)
  | _ => false
  end.
Example C95_rule_case : forall tx keccak, length (filter rs_generated (getAllRules tx keccak)) = 1449%nat /\ length (getAllRules tx keccak) = 1595%nat.
Proof. intros tx keccak. split; vm_compute; reflexivity. Qed.
(** Conditions [gas < 1] and [stackSize < 1] of rules hold for states without gas, or with an empty stack, but no state is generated. *)
Theorem C95_below_one_refuted : forall d fuel cs, Forall cond_ok cs -> proper_draws d (asked_all cs) -> fresh_addresses d (fun _ => None) (asked_all cs) ->
  In (Cmp Lt EGas 1) cs \/ In (Cmp Lt ESize 1) cs -> forall s b, GenerateSatisfyingState d fuel cs <> Some (Generated (s, b)).
Proof. exact never_generated. Qed.
Example C95_below_one_rules : forall tx keccak,
  (exists r, In r (getAllRules tx keccak) /\ In (Cmp Lt EGas 1) (r_conditions r)) /\ (exists r, In r (getAllRules tx keccak) /\ In (Cmp Lt ESize 1) (r_conditions r)).
Proof.
  intros tx keccak. assert (h : forall f : cond -> bool, existsb (fun r => existsb f (r_conditions r)) (getAllRules tx keccak) = true -> exists r c, In r (getAllRules tx keccak) /\ In c (r_conditions r) /\ f c = true).
  { intros f e. apply existsb_exists in e. destruct e as (r & h1 & h2). apply existsb_exists in h2. destruct h2 as (c & h3 & h4). eauto. }
  split.
  - destruct (h (fun c => match c with Cmp Lt EGas 1 => true | _ => false end)) as (r & c & h1 & h2 & h3); [vm_compute; reflexivity|]. exists r. split; [exact h1|].
    destruct c as [c e v| | | | | | | | | | | | | | | | | |]; try discriminate h3. destruct c; try discriminate h3. destruct e; try discriminate h3. destruct v as [|[p|p|]|p]; try discriminate h3. exact h2.
  - destruct (h (fun c => match c with Cmp Lt ESize 1 => true | _ => false end)) as (r & c & h1 & h2 & h3); [vm_compute; reflexivity|]. exists r. split; [exact h1|].
    destruct c as [c e v| | | | | | | | | | | | | | | | | |]; try discriminate h3. destruct c; try discriminate h3. destruct e; try discriminate h3. destruct v as [|[p|p|]|p]; try discriminate h3. exact h2.
Qed.
(** [balance(self) < 1]: the bound is counted down below zero, so that it is none, and the state does not satisfy the condition
    (here, one that contradicts another condition). *)
Example C95_balance_refuted : let cs := [Cmp Ge EBalanceOfSelf 1; Cmp Lt EBalanceOfSelf 1] in
  exists s b, GenerateSatisfyingState (st_draws (asked_all cs)) 10 cs = Some (Generated (s, b)) /\ Check s (Cmp Lt EBalanceOfSelf 1) = Some false.
Proof. cbv zeta. eexists _, _. split; [vm_compute; reflexivity|]. vm_compute. reflexivity. Qed.
(** Conditions that cannot be asked for: restricting panics. *)
Example C95_panics : GenerateSatisfyingState (st_draws []) 10 [Cmp Lt (EParam 0) 3] = None /\ GenerateSatisfyingState (st_draws []) 10 [Cmp Ne EPc 65535] = None /\ GenerateSatisfyingState (st_draws []) 10 [Cmp Gt EStatus 1] = None.
Proof. repeat split; vm_compute; reflexivity. Qed.
Print Assumptions C95_conditions.
Print Assumptions C95_rules.
Print Assumptions C95_same_conditions.
Print Assumptions C95_specification.
