(** Conditions of the specification of instructions and of the generator of states: the same. *)
From Verif Require Import Base Host GoStorage Lfvm Ct CtRules CtRuleFacts CtSolve SpecSolve CtGen SpecGen CtCodeGen SpecCode CtContext SpecContext CtAccounts SpecAccounts CtState SpecState CtRestrict SpecRestrict CtRestrictFacts CtRestrictRules.
From Coq Require Import Lia ZArith List Bool.
Import ListNotations.
Open Scope Z_scope.

Definition result {A} (r : res (option A)) : option A := match r with Ok x => x | _ => None end.
Lemma get_negative s i : i < 0 -> get i s = Undef UB_stack_oob.
Proof.
  intros h. unfold get, znth. unfold zlen. destruct (Z.ltb_spec (Z.of_nat (length (ct_stack s)) - i - 1) 0) as [|h1]; [reflexivity|].
  rewrite (proj2 (nth_error_None _ _)); [reflexivity|]. lia.
Qed.
Lemma eval_agrees tx s t e : represents tx s t -> Eval t e = result (eval s e).
Proof.
  intros (h1 & h2 & h3 & h4 & h5 & h6 & h7 & h8 & h9 & h10 & h11 & h11' & h12 & h13 & h14 & h15 & h16 & h17 & h18 & h19).
  induction e; cbn [eval Eval result].
  - rewrite h1. reflexivity.
  - rewrite h2. reflexivity.
  - rewrite h5. reflexivity.
  - rewrite <- h8. unfold zlen. rewrite rev_length. reflexivity.
  - rewrite h4. reflexivity.
  - destruct (Z.ltb_spec i 0) as [hi|hi].
    + rewrite get_negative by exact hi. cbn [rbind result]. assert (hz : znth (s_stack t) i = None) by (unfold znth; destruct (Z.ltb_spec i 0); [reflexivity|lia]).
      rewrite hz. destruct (_ <=? _); destruct (_ <=? _); reflexivity.
    + change (if zlen (ct_stack s) <=? i then Ok None else do! v <- get i s; Ok (Some v)) with (eval s (EParam i)). rewrite eval_param by exact hi. cbn [result].
      rewrite h8. destruct (Z.leb_spec (zlen (s_stack t)) i) as [hl|]; [|reflexivity].
      unfold znth. destruct (Z.ltb_spec i 0); [reflexivity|]. symmetry. apply nth_error_None. unfold zlen in hl. lia.
  - rewrite IHe. destruct (eval s e) as [[v|]|u|]; cbn [result rbind]; try reflexivity.
    rewrite h7. destruct (_ || _); [reflexivity|]. destruct (GetOperation (s_code t) v); reflexivity.
  - rewrite h17, h9. reflexivity.
Qed.
Lemma checks_agree tx s t c : represents tx s t -> Check t c = result (check tx s c).
Proof.
  intros h. pose proof (fun e => eval_agrees tx s t e h) as he.
  destruct h as (h1 & h2 & h3 & h4 & h5 & h6 & h7 & h8 & h9 & h10 & h11 & h11' & h12 & h13 & h14 & h15 & h16 & h17 & h18 & h19).
  assert (hempty : forall a, CtAccounts.IsEmpty (s_accounts t) (NewAddress a) = AccIsEmpty (ct_world s) (bytes20 a)).
  { intros a. unfold CtAccounts.IsEmpty, AccIsEmpty. rewrite h17, h18. reflexivity. }
  destruct c; unfold Check, check; cbv zeta; try (rewrite he; match goal with |- context [eval s ?e] => destruct (eval s e) as [[v|]|u|] end; cbn [result rbind]; try reflexivity).
  - rewrite he. destruct (eval s e) as [[x|]|u|]; reflexivity.
  - rewrite h3. reflexivity.
  - rewrite h7. reflexivity.
  - rewrite h7. reflexivity.
  - rewrite h15. reflexivity.
  - rewrite h15. reflexivity.
  - rewrite he. destruct (eval s value) as [[v'|]|u|]; cbn [result rbind]; try reflexivity. rewrite h13, h14. reflexivity.
  - rewrite h16. reflexivity.
  - rewrite h16. reflexivity.
  - rewrite hempty. reflexivity.
  - rewrite hempty. reflexivity.
  - unfold NewAddress. rewrite <- h19. reflexivity.
  - unfold NewAddress. rewrite <- h19. reflexivity.
  - rewrite h10. reflexivity.
  - rewrite h10. reflexivity.
  - rewrite h11. reflexivity.
  - rewrite h11. reflexivity.
  - rewrite h12. reflexivity.
  - rewrite h12. reflexivity.
Qed.
(** in the states of the specification, the condition of a rule holds if its conditions do *)
Lemma check_all_true tx s cs : Forall (fun c => check tx s c = Ok (Some true)) cs -> check_all tx s cs = Ok (Some true).
Proof. induction 1 as [|c cs e _ IH]; [reflexivity|]. cbn [check_all]. rewrite e. cbn [rbind]. exact IH. Qed.
Lemma rules_agree : forall tx0 keccak r, In r (getAllRules tx0 keccak) ->
  forall d fuel, proper_draws d (asked_all (r_conditions r)) -> fresh_addresses d (fun _ => None) (asked_all (r_conditions r)) ->
  forall t b, GenerateSatisfyingState d fuel (r_conditions r) = Some (Generated (t, b)) -> (forall c, In c (r_conditions r) -> ~ remains t (r_conditions r) c) ->
  forall tx s, represents tx s t -> check_all tx s (r_conditions r) = Ok (Some true).
Proof.
  intros tx0 keccak r hr d fuel hd hf t b hg hn tx s hs. apply check_all_true.
  pose proof (proj2 (rules_sound tx0 keccak r hr) d fuel hd hf t b hg) as h. rewrite Forall_forall in h |- *.
  intros c hc. destruct (h c hc) as [e|e]; [|destruct (hn c hc e)].
  rewrite (checks_agree tx s t c hs) in e. destruct (check tx s c) as [x|u|]; cbn [result] in e; try discriminate e. rewrite e. reflexivity.
Qed.
