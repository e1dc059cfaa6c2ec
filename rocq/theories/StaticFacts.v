(** What an execution can do to the host's state. *)
From Verif Require Import Base Host SpecEvm SpecCall SpecVm MemFacts JumpFacts SpecFacts SpecHost FrameFacts Vm VmFacts SpecStep StepFacts Client ClientFacts OpFacts ApiFacts.
From Coq Require Import Lia ZArith List Bool.
Import ListNotations.

Lemma warms_survive {W} (H : host W) P w w' : survives_access H P -> P w -> warms H w w' -> P w'.
Proof. intros [S1 S2] Hw. induction 1; auto. Qed.

Lemma instr_byte b i : instruction b = Some i -> is_byte b.
Proof.
  intros E. assert (D : is_byte b \/ b < 0 \/ 256 <= b) by (unfold is_byte; lia). destruct D as [D|[D|D]]; [exact D| |]; exfalso.
  - destruct b as [|p|p]; try lia. discriminate E.
  - destruct b as [|p|p]; try lia. do 8 (destruct p as [p|p|]; try lia); unfold instruction in E;
      repeat match type of E with context [?x <=? ?y] => let K := fresh in destruct (Z.leb_spec x y) as [K|K]; try lia end; discriminate E.
Qed.

Section Static.
Context {W : Type}.
Variable H : host W.
Variable keccak : list Z -> Z.
Variable P : W -> Prop.
Hypothesis HP : survives_access H P.

Section Frame.
Variable call : W -> message -> cresult * W.
Variables (m : message) (rv : revision) (code : list Z).
Hypothesis Hstatic : Z.odd (msg_flags m) = true.
Hypothesis Hcall : forall w m', P w -> harmless m' -> P (snd (call w m')).
Definition all_out (o : outcome W) : Prop := match o with Next f | Halt _ _ f | Fail _ f => P (f_world f) end.

Lemma static_step f : P (f_world f) -> all_out (step H call keccak m rv code (is_dest code) f).
Proof.
  intros Hw. unfold step. set (b := code_at code (f_pc f)). 
  destruct (instruction b) as [i|] eqn:Ei; [|destruct (_ <? _); exact Hw]. pose proof (instr_byte b i Ei) as Hb.
  destruct (negb _); [exact Hw|]. destruct (in_stateful i && static m) eqn:Es; [exact Hw|].
  destruct (Z.ltb_spec (zlen (f_stack f)) (in_args i)) as [|Ha]; [exact Hw|]. destruct (_ <? _); [exact Hw|].
  unfold charge. destruct (_ <? _); [exact Hw|].
  unfold static in Es. rewrite Hstatic, andb_true_r, (table_modifying b i Hb Ei) in Es.
  pose proof (exec_effect H call keccak m rv code (is_dest code) b i (with_gas (f_gas f - in_fee i) f) Hb Ei Ha) as X.
  destruct (SpecEvm.exec _ _ _ _ _ _ _ b _) as [f'|h d f'|e f']; cbn [all_out effect] in *.
  - destruct X as (_ & _ & _ & _ & X5 & X6). destruct (is_asking b) eqn:Eq; [|eapply warms_survive; [exact HP|exact Hw|exact (X5 eq_refl Es)]].
    destruct (X6 eq_refl) as (w1 & Hw1 & [->|(m' & Hs & ->)]).
    + eapply warms_survive; [exact HP|exact Hw|exact Hw1].
    + apply Hcall; [eapply warms_survive; [exact HP|exact Hw|exact Hw1]|].
      assert (N1 : b <> 0xF0) by (intros ->; discriminate Es). assert (N2 : b <> 0xF5) by (intros ->; discriminate Es).
      destruct Hs as [_ H2 H3 H4]. unfold static in H2, H3. destruct (H4 N1 N2) as [K1 K2]. split; [apply H2; assumption|]. split; [exact K1|]. split; [exact K2|]. apply H3; assumption.
  - destruct X as [(Hb' & _ & _ & X & _)|(_ & X & _)].
    + destruct Hb' as [Hb'|Hb']; [rewrite (X Hb'); exact Hw|]. rewrite Hb' in Es. discriminate Es.
    + rewrite X. exact Hw.
  - destruct X as [_ X]. eapply warms_survive; [exact HP|exact Hw|apply X]. intros E. rewrite E in Es. discriminate Es.
Qed.
Lemma static_run n : forall f, P (f_world f) -> all_out (run_for H call keccak m rv code (is_dest code) n f).
Proof.
  induction n as [|n IH]; intros f Hw; [exact Hw|]. cbn [run_for]. pose proof (static_step f Hw) as X.
  destruct (step _ _ _ _ _ _ _ f); cbn [all_out] in X; [apply IH; exact X|exact X|exact X].
Qed.
End Frame.

Variable handler : W -> message -> prog W.
Hypothesis Hh : forall w m, P w -> harmless m -> preserves P (handler w m).

Lemma static_play ex p : (forall w rv code m, P w -> Z.odd (msg_flags m) = true -> P (snd (ex w rv code m))) -> preserves P p -> P (snd (play ex p)).
Proof.
  intros Hex. induction 1 as [r w Hw|w rv code m k Hw Hm Hk IH]; cbn [play]; [exact Hw|].
  pose proof (Hex w rv code m Hw Hm) as X. destruct (ex w rv code m) as [r w']. apply IH. exact X.
Qed.
Lemma result_world (o : outcome W) : all_out o -> P (snd (result_of o)).
Proof. destruct o; exact (fun h => h). Qed.
Lemma static_eval n : forall w rv code m, P w -> Z.odd (msg_flags m) = true -> P (snd (eval H keccak handler n w rv code m)).
Proof.
  induction n as [|n IH]; intros w rv code m Hw Hm; cbn [eval]; [exact Hw|].
  unfold evaluate. apply result_world, static_run; [exact Hm| |exact Hw].
  intros w1 m1 Hw1 Hm1. apply static_play; [exact IH|apply Hh; assumption].
Qed.
End Static.

Section Api.
Context {W : Type}.
Variable g : setting W.
Hypothesis Hg : setting_ok g.
Notation hst := (g_host g).

(** the effects of a static message are those of accesses and of harmless nested calls *)
Theorem static_execute (P : W -> Prop) v w rv code m r w' v' : reach g v -> exec_ok (g_code_of g) code m ->
  Z.odd (msg_flags m) = true -> survives_access hst P -> (forall w m', P w -> harmless m' -> P (snd (nested g w m'))) -> P w ->
  Execute g v w rv code m = Ok (r, w', v') -> P w'.
Proof.
  intros Hv He Hs Hsv Hn Hw E. destruct (execute_reference g Hg v w rv code m Hv He) as (v2 & E2 & _). rewrite E in E2. injection E2 as _ -> _.
  rewrite reference_eq. apply result_world. unfold ref_run. apply static_run; assumption.
Qed.
Theorem static_stepn (P : W -> Prop) v w rv code m si so w' v' : reach g v -> exec_ok (g_code_of g) code m -> step_ok code m si ->
  Z.odd (msg_flags m) = true -> survives_access hst P -> (forall w m', P w -> harmless m' -> P (snd (nested g w m'))) -> P w ->
  StepN g v w rv code m si = Ok (so, w', v') -> P w'.
Proof.
  intros Hv He Hk Hs Hsv Hn Hw E.
  assert (D : si_status si = STEP_RUNNING \/ si_status si <> STEP_RUNNING) by (destruct (si_status si); (left; reflexivity) || (right; discriminate)).
  destruct D as [D|D].
  - destruct (stepn_reference g Hg v w rv code m si Hv He Hk D) as (so2 & w2 & v2 & E2 & _ & S & _). rewrite E in E2. injection E2 as -> -> ->.
    pose proof (static_run hst (g_keccak g) P Hsv (nested g) m rv code Hs Hn (Z.to_nat (si_steps si)) (frame_in m w si) Hw) as X.
    unfold step_shows in S. destruct (run_for _ _ _ _ _ _ _ _ _) as [f'|h d f'|e f']; cbn [all_out] in X.
    + destruct S as [_ ->]. exact X.
    + destruct S as [_ ->]. exact X.
    + destruct S as (k & f1 & S). decompose [and] S. subst. exact X.
  - destruct (idle_ok g Hg v w rv code m si (reach_ok g Hg v Hv) He Hk (or_introl D)) as (so2 & v2 & E2 & _). rewrite E in E2. injection E2 as _ -> _. exact Hw.
Qed.
(** ... including all nested executions, if the host itself respects static mode *)
Theorem static_deep (P : W -> Prop) v w rv code m r w' v' : reach g v -> exec_ok (g_code_of g) code m ->
  Z.odd (msg_flags m) = true -> survives_access hst P -> (forall w m', P w -> harmless m' -> preserves P (g_handler g w m')) -> P w ->
  Execute g v w rv code m = Ok (r, w', v') -> P w'.
Proof.
  intros Hv He Hs Hsv Hn Hw E. destruct (execute_reference g Hg v w rv code m Hv He) as (v2 & E2 & _). rewrite E in E2. injection E2 as _ -> _.
  unfold reference. apply static_eval; assumption.
Qed.
End Api.
