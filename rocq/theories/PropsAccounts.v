(** * The generator of accounts for the conformance tests *)
From Verif Require Import Base CtSolve CtGen SpecGen CtAccounts SpecAccounts CtAccountsFacts CtAccountsFacts2.
From Coq Require Import Lia ZArith List Bool.
Import ListNotations.
Open Scope Z_scope.

(** ** C93 *)
(** generated accounts fulfil the requests, except for those that are overlooked; the executing account has code *)
Theorem C93_accounts : forall ch fuel a own qs s b, apart ch a -> sized ch -> Forall account_request_ok qs ->
  AccountsGenerate ch fuel a own (accounts_generator qs) = Generated (s, b) ->
  extends a b /\ zlen (GetCode s own) = 42 /\ Forall (fun q => account_fulfils b s q \/ overlooked a b own qs q) qs.
Proof. exact accounts_sound. Qed.
(** requests are reported as unsatisfiable only if they are; there is no other error and no panic *)
Theorem C93_errors : forall ch fuel a own qs, apart ch a -> sized ch -> Forall account_request_ok qs ->
  match AccountsGenerate ch fuel a own (accounts_generator qs) with
  | ErrUnsatisfiable => ~ accounts_possible a qs | ErrUnboundVariable | Panics => False | Generated _ | Running => True
  end.
Proof. exact accounts_errors. Qed.
(** the search for unused addresses ends *)
Theorem C93_terminates : forall ch a own qs, apart ch a -> sized ch -> Forall account_request_ok qs -> fair (fun i => NewAddress (ch_address ch i)) -> 2 * zlen qs < 2 ^ 63 ->
  exists F, forall fuel, (F <= fuel)%nat ->
    AccountsGenerate ch fuel a own (accounts_generator qs) = ErrUnsatisfiable \/ exists s b, AccountsGenerate ch fuel a own (accounts_generator qs) = Generated (s, b).
Proof. exact accounts_complete. Qed.
(** impossible requests are reported, unless one is overlooked *)
Theorem C93_possible : forall ch fuel a own qs s b, apart ch a -> sized ch -> Forall account_request_ok qs ->
  AccountsGenerate ch fuel a own (accounts_generator qs) = Generated (s, b) ->
  Forall (fun q => ~ overlooked a b own qs q) qs -> accounts_possible a qs.
Proof. exact accounts_generated_possible. Qed.

Definition ax_code : list Z := repeat 91 42.
Definition ax_choices (kind : Z) : choices :=
  mkChoices (fun i => 2 ^ 100 + Z.of_nat i mod 2 ^ 100) (fun _ => kind) (fun _ => 12345) 2 (fun i => (Z.of_nat i + 7, Some [1; 2], true)) 99 ax_code.
(** variables 1 and 2 are bound; 2^160 + 20 names address 20 *)
Definition ax_bound : Assignment := fun x => if x =? 1 then Some 10 else if x =? 2 then Some (2 ^ 160 + 20) else None.
Lemma ax_sized k : sized (ax_choices k). Proof. split; [reflexivity|unfold is_word; cbn; lia]. Qed.
Lemma ax_apart k : apart (ax_choices k) ax_bound.
Proof.
  intros i x A (v & hv & ->). cbn [ch_address ax_choices]. pose proof (Z.mod_pos_bound (Z.of_nat i) (2 ^ 100) ltac:(lia)). rewrite (Z.mod_small (2 ^ 100 + _)) by lia.
  unfold ax_bound in hv. destruct (x =? 1); [injection hv as <-; rewrite (Z.mod_small 10) by lia; lia|]. destruct (x =? 2); [|discriminate]. assert (e : v = 2 ^ 160 + 20) by congruence. rewrite e, <- (Z.add_mod_idemp_l (2 ^ 160)), Z_mod_same_full, Z.add_0_l, (Z.mod_small 20) by lia. lia.
Qed.
Definition ax_requests : list account_request := [Empty 1; WarmAt 1; NonEmpty 2; AtLeast 2 100; AtMost 2 200; ColdAt 2; AtLeast 3 5; WarmAt 4; Empty 4; NonEmpty 5; AtLeast 2 120].
Example C93_case : sized (ax_choices 0) /\ apart (ax_choices 0) ax_bound /\ Forall account_request_ok ax_requests /\ fair (fun i => NewAddress (ch_address (ax_choices 0) i)) /\
  match AccountsGenerate (ax_choices 0) 10 ax_bound 77 (accounts_generator ax_requests) with
  | Generated (s, b) => GetBalance s 10 = 0 /\ GetCode s 10 = [] /\ IsWarm s 10 = true /\ GetBalance s 20 = 120 + 12345 mod 81 /\ IsWarm s 20 = false /\
      b 4 = Some (2 ^ 100) /\ b 5 = Some (2 ^ 100 + 1) /\ b 3 = Some (2 ^ 100 + 2) /\ GetBalance s (2 ^ 100 + 2) = 5 + 12345 /\
      GetBalance s (2 ^ 100 + 3) = 7 /\ GetBalance s (2 ^ 100 + 4) = 8 /\ ExistsAccount s (2 ^ 100 + 5) = false /\ GetBalance s 77 = 99 /\ GetCode s 77 = ax_code /\ b 1 = Some 10
  | _ => False
  end /\ Forall (fun q => ~ overlooked ax_bound (fun x => if x =? 4 then Some (2 ^ 100) else if x =? 5 then Some (2 ^ 100 + 1) else if x =? 3 then Some (2 ^ 100 + 2) else ax_bound x) 77 ax_requests q) ax_requests.
Proof.
  split; [exact (ax_sized 0)|]. split; [exact (ax_apart 0)|]. split; [repeat constructor; unfold is_word; try lia|]. split; [exact counting_addresses_fair|]. split; [vm_compute; repeat split; reflexivity|].
  repeat constructor; cbn; try tauto.
  - intros (v & hv & e). injection hv as <-. discriminate e.
  - intros (_ & A & (v & hv & ->) & _ & h). injection hv as <-. assert (100 = 0); [|discriminate]. apply (h 2 100); [exists (2 ^ 160 + 20); split; reflexivity|]. cbn. tauto.
  - intros (A & y & hy & (v & hv & ->) & (w & hw & e) & _). injection hv as <-. unfold ax_bound in hw. destruct (Z.eqb_spec y 1); [injection hw as <-; discriminate e|]. destruct (Z.eqb_spec y 2); [contradiction|discriminate].
  - intros (v & hv & e). injection hv as <-. discriminate e.
  - intros (_ & A & (v & hv & ->) & (y & w & hy & hin) & _). injection hv as <-. destruct hin as [hin|[hin|[hin|[hin|[hin|[hin|[hin|[hin|[hin|[hin|[hin|[]]]]]]]]]]]]; try discriminate hin. injection hin as <- <-.
    destruct hy as (u & hu & e). injection hu as <-. discriminate e.
Qed.
Example C93_conflicts :
  AccountsGenerate (ax_choices 0) 10 ax_bound 77 (accounts_generator [Empty 3; NonEmpty 3]) = ErrUnsatisfiable /\
  AccountsGenerate (ax_choices 0) 10 (fun _ => Some 5) 77 (accounts_generator [Empty 3; NonEmpty 4]) = ErrUnsatisfiable /\
  AccountsGenerate (ax_choices 0) 10 (fun _ => Some 5) 77 (accounts_generator [Empty 3; AtLeast 4 1]) = ErrUnsatisfiable /\
  AccountsGenerate (ax_choices 0) 10 (fun _ => Some 5) 77 (accounts_generator [AtMost 3 7; AtLeast 4 8]) = ErrUnsatisfiable /\
  AccountsGenerate (ax_choices 0) 10 ax_bound 77 (accounts_generator [WarmAt 3; ColdAt 3]) = ErrUnsatisfiable.
Proof. repeat split; vm_compute; reflexivity. Qed.
(** the executing account is to be empty, but gets code; no error *)
Example C93_own_refuted : exists s b, AccountsGenerate (ax_choices 0) 10 ax_bound 10 (accounts_generator [Empty 1]) = Generated (s, b) /\ ~ account_fulfils b s (Empty 1).
Proof.
  eexists _, _. split; [vm_compute; reflexivity|]. intros (A & (v & hv & ->) & _ & h). vm_compute in hv. injection hv as <-. vm_compute in h. discriminate h.
Qed.
(** an account that is not to be empty gets only a balance, which is then replaced by one within the bounds: 0 *)
Example C93_zero_refuted : exists s b, AccountsGenerate (ax_choices 0) 10 ax_bound 77 (accounts_generator [NonEmpty 1; AtMost 1 0]) = Generated (s, b) /\ ~ account_fulfils b s (NonEmpty 1).
Proof.
  eexists _, _. split; [vm_compute; reflexivity|]. intros (A & (v & hv & ->) & h). vm_compute in hv. injection hv as <-. apply h. vm_compute. split; reflexivity.
Qed.
(** ... although the requests can be fulfilled, and are for other random numbers *)
Example C93_zero_possible : exists s b, AccountsGenerate (ax_choices 1) 10 ax_bound 77 (accounts_generator [NonEmpty 1; AtMost 1 0]) = Generated (s, b) /\ account_fulfils b s (NonEmpty 1) /\ account_fulfils b s (AtMost 1 0).
Proof.
  eexists _, _. split; [vm_compute; reflexivity|]. split; exists 10; (split; [exists 10; split; reflexivity|]).
  - intros [_ h]. vm_compute in h. discriminate h.
  - vm_compute. discriminate.
Qed.
(** a random number between 0 and the largest one is always 0 *)
Theorem C93_full_range_refuted : forall r, RandU256Between r 0 (2 ^ 256 - 1) = 0.
Proof. exact full_range. Qed.
(** one address is to be warm and cold under different names; no error *)
Example C93_cold_refuted : exists s b, AccountsGenerate (ax_choices 0) 10 (fun _ => Some 5) 77 (accounts_generator [WarmAt 1; ColdAt 2]) = Generated (s, b) /\ ~ account_fulfils b s (ColdAt 2) /\
  ~ accounts_possible (fun _ => Some 5) [WarmAt 1; ColdAt 2].
Proof.
  eexists _, _. split; [vm_compute; reflexivity|]. split.
  - intros (A & (v & hv & ->) & h). vm_compute in hv. injection hv as <-. vm_compute in h. discriminate h.
  - intros (b & s & he & hf). inversion hf as [|? ? h1 h2]; subst. inversion h2 as [|? ? h3 _]; subst. destruct h1 as (A & (v & hv & ->) & h1), h3 as (B & (w & hw & ->) & h3). cbn in hv, hw.
    rewrite (he 1 5 eq_refl) in hv. rewrite (he 2 5 eq_refl) in hw. injection hv as <-. injection hw as <-. congruence.
Qed.
(** addresses bound to variables with requests other than warm and cold count as unused: a random entry can overwrite an empty account *)
Example C93_collision_refuted : exists ch a s b, sized ch /\ AccountsGenerate ch 10 a 77 (accounts_generator [Empty 1]) = Generated (s, b) /\ ~ account_fulfils b s (Empty 1) /\ a 1 <> Some 77.
Proof.
  exists (ax_choices 0), (fun _ => Some (2 ^ 100)). eexists _, _. split; [exact (ax_sized 0)|]. split; [vm_compute; reflexivity|]. split; [|discriminate].
  intros (A & (v & hv & ->) & h & _). vm_compute in hv. injection hv as <-. vm_compute in h. discriminate h.
Qed.
Print Assumptions C93_full_range_refuted.
Print Assumptions C93_accounts.
Print Assumptions C93_errors.
Print Assumptions C93_terminates.
Print Assumptions C93_possible.
