(** Histories of the toy, and facts about calls. *)
From Verif Require Import Base Host SpecEvm SpecCall SpecVm Vm SpecStep MemFacts SpecFacts StepFacts Client ClientFacts SpecOps SpecTop GoStorage
  SpecHost FrameFacts OpFacts OpFacts2 OpFacts3 OpFacts4 OpFacts5 OpFacts6 ApiFacts StoreFacts RunFacts PropFacts PropFacts2 Toy.
From Coq Require Import Lia ZArith List Bool.
Import ListNotations.

(** slot 1 (holding 7) is cleared and restored: 4800 - 4800 + 2800 *)
Lemma toy_stores : exists r w', stores (toy_setting []) ty_committed London toy0 r w' /\ r = 2800.
Proof.
  assert (S1 : steps_to (toy_setting []) (vm_new 0 0) toy0 London [0x55] (toy_msg 10000 []) (toy_in 0 [0; 1] [] []) (running London 1 5000 4800 [] [] [])
    (mkToy [(0x11, 1, 0)] [(0x11, 1)] [] [] 100 [])) by toy_one.
  assert (S2 : steps_to (toy_setting []) (vm_new 0 0) (mkToy [(0x11, 1, 0)] [(0x11, 1)] [] [] 100 []) London [0x55] (toy_msg 10000 []) (toy_in 0 [7; 1] [] [])
    (running London 1 9900 (-2000) [] [] []) (mkToy [(0x11, 1, 7); (0x11, 1, 0)] [(0x11, 1); (0x11, 1)] [] [] 100 [])) by toy_one.
  assert (A1 : at_op (toy_setting []) (vm_new 0 0) [0x55] (toy_msg 10000 []) (toy_in 0 [0; 1] [] []) 0x55) by toy_ready.
  assert (A2 : at_op (toy_setting []) (vm_new 0 0) [0x55] (toy_msg 10000 []) (toy_in 0 [7; 1] [] []) 0x55) by toy_ready.
  pose proof (stores_one _ _ _ _ _ _ _ _ _ _ _ _ (stores_none (toy_setting []) ty_committed London toy0) A1 S1 eq_refl) as X1.
  pose proof (stores_one _ _ _ _ _ _ _ _ _ _ _ _ X1 A2 S2 eq_refl) as X2.
  eexists _, _. split; [exact X2|reflexivity].
Qed.

Section Output.
Context {W : Type}.
Variable g : setting W.
Hypothesis Hg : setting_ok g.
Notation eok := (exec_ok (g_code_of g)).
Notation hst := (g_host g).

Theorem output_exact v w rv code m r w' v' : reach g v -> eok code m -> Execute g v w rv code m = Ok (r, w', v') -> cr_output r <> [] ->
  exists n so w1 rest len off, observed g v w rv code m n so w1 /\ so_step so = STEP_RUNNING /\
    In (code_at code (so_pc so), cr_status r) [(0xF3, EVMC_SUCCESS); (0xFD, EVMC_REVERT)] /\
    so_stack so = rest ++ [len; off] /\ cr_output r = data_bytes (so_mem so) off len.
Proof.
  intros Hv He Ex Hout. destruct (status_map g Hg v w rv code m Hv He) as (n & so & w1 & so' & r2 & w2 & v2 & O1 & R1 & O2 & Ex2 & S1 & S2 & S3 & S4 & S5).
  rewrite Ex in Ex2. injection Ex2 as <- <- <-. cbv zeta in S5.
  destruct (run_end g Hg v w rv code m n so w1 Hv He O1 R1) as (f & Hs & -> & -> & En & K).
  cbn [shown so_pc so_stack so_mem] in *.
  assert (NN : forall f', ref_step g m rv code f <> Next f').
  { intros f' E. pose proof (observed_shows g Hg v w rv code m (S n) so' w' Hv He O2) as Sh. rewrite (run_succ g), En, E in Sh.
    destruct Sh as [-> _]. exact S5. }
  destruct (K _ eq_refl NN) as [Er E1].
  destruct (execute_reference g Hg v w rv code m Hv He) as [v3 [Ex3 _]]. rewrite Er, Ex in Ex3. injection Ex3 as Hr Hw' _.
  assert (B : code_at code (f_pc f) = 0xF3 /\ cr_status r = EVMC_SUCCESS \/ code_at code (f_pc f) = 0xFD /\ cr_status r = EVMC_REVERT).
  { destruct (so_step so'); try contradiction.
    - destruct S5 as (_ & _ & X). rewrite X in Hout. congruence.
    - left. exact S5.
    - right. exact S5.
    - destruct S5 as (_ & _ & X). congruence. }
  assert (Hmem : forall off len, data_bytes (read_bytes (f_mem f) 0 (f_active f)) off len = read_bytes (f_mem f) off len \/ off < 0).
  { intros off len. destruct (Z_lt_dec off 0); [right; assumption|left]. rewrite data_bytes_read. apply read_bytes_ext; [lia|]. intros i Hi.
    destruct Hs as (_ & _ & _ & _ & _ & Hz & _ & Ha & _).
    destruct (Z_lt_dec i (f_active f)).
      - rewrite read_bytes_at by lia. reflexivity.
      - rewrite data_at_out; [|rewrite read_bytes_zlen; lia]. symmetry. apply Hz. lia. }
  assert (Hwords : Forall is_word (f_stack f)) by (destruct Hs as (_ & _ & X & _); exact X).
  assert (Main : exists off len s, f_stack f = off :: len :: s /\ (fst (result_of (ref_step g m rv code f)) = r -> cr_output r = read_bytes (f_mem f) off len)).
  { assert (Hi : forall b h, (b = 0xF3 /\ h = Returned \/ b = 0xFD /\ h = Reverted) -> code_at code (f_pc f) = b ->
       ref_step g m rv code f = (if zlen (f_stack f) <? 2 then Fail StackUnderflow f else if 1024 <? zlen (f_stack f) - 2 + 0 then Fail StackOverflow f
          else charge 0 f (fun f => i_return h f))).
    { intros b h Hb Eb. unfold ref_step, step. rewrite Eb. destruct Hb as [[-> ->]|[-> ->]]; cbn [instruction in_since in_stateful in_args in_results in_fee]; rewrite istanbul; cbn [negb andb]; reflexivity. }
    assert (Fin : exists h, ref_step g m rv code f = (if zlen (f_stack f) <? 2 then Fail StackUnderflow f else if 1024 <? zlen (f_stack f) - 2 + 0 then Fail StackOverflow f
          else charge 0 f (fun f => i_return h f))).
    { destruct B as [[B _]|[B _]]; [exists Returned|exists Reverted]; eapply Hi; eauto. }
    destruct Fin as [h Fin]. rewrite Fin in Hr |- *. 
    destruct (Z.ltb_spec (zlen (f_stack f)) 2); [exfalso; apply Hout; rewrite Hr; reflexivity|].
    destruct (1024 <? _); [exfalso; apply Hout; rewrite Hr; reflexivity|].
    destruct (f_stack f) as [|off [|len s]] eqn:Est; [unfold zlen in *; cbn in *; lia|unfold zlen in *; cbn in *; lia|].
    exists off, len, s. split; [reflexivity|]. intros _. rewrite Hr in Hout |- *. clear Hr Fin K. unfold charge in *.
    destruct (f_gas f <? 0); [exfalso; apply Hout; reflexivity|]. unfold i_return in *. cbn [with_gas f_stack] in *. rewrite Est in *. unfold charge in *.
    destruct (_ <? _); [exfalso; apply Hout; reflexivity|reflexivity]. }
  destruct Main as (off & len & s & Est & Ho).
  exists n, (shown STEP_RUNNING EVMC_FAILURE rv f (f_ret f)), (f_world f), (rev s), len, off.
  split; [exact O1|]. split; [reflexivity|]. split.
  { destruct B as [[B1 B2]|[B1 B2]]; cbn [shown so_pc]; rewrite B1, B2; cbn; auto. }
  split; [cbn [shown so_stack]; rewrite Est; cbn [rev]; rewrite <- app_assoc; reflexivity|].
  rewrite Ho by (symmetry; exact Hr). cbn [shown so_mem]. destruct (Hmem off len) as [X|X]; [symmetry; exact X|].
  exfalso. rewrite Est in Hwords. inversion Hwords as [|? ? Hw0 _]; subst. unfold is_word in Hw0. lia.
Qed.

Theorem unfunded_call v w rv code m si (k : call_op) rest (greq a value ioff isz ooff osz c : Z) w1 :
  at_op g v code m si (call_byte k) -> takes_value k = true -> (k = OpCall -> static m = false) ->
  si_stack si = rest ++ [osz; ooff; isz; ioff; value; a; greq] ->
  account_access hst rv w (a mod 2 ^ 160) = (c, w1) -> h_get_balance hst w1 (msg_recipient m) < value -> value <> 0 ->
  let size := expand (grown (si_mem si) ioff isz) ooff osz in
  let new := match k with OpCall => negb (h_account_exists hst w1 (a mod 2 ^ 160)) | _ => false end in
  let cost := Gmem size - Gmem (zlen (si_mem si)) + c + 9000 + (if new then 25000 else 0) in
  cost <= msg_gas m ->
  exists mem', steps_to g v w rv code m si (running rv (si_pc si + 1) (msg_gas m - cost + 2300) (si_refunds si) (rest ++ [0]) mem' []) w1 /\
    overwritten (si_mem si) mem' size 0 0 (fun _ => 0).
Proof.
  intros Ho Hk Hst Hs Ha Hb Hv size new cost Hc.
  assert (Hs' : si_stack si = rest ++ call_operands k greq a value ioff isz ooff osz) by (unfold call_operands; rewrite Hk; exact Hs).
  pose proof (op_call g Hg v w rv code m si k rest greq a value ioff isz ooff osz c w1 Ho Hs' ltac:(congruence) Ha) as X. cbv zeta in X.
  destruct (Z.eqb_spec value 0) as [E|_]; [contradiction|]. cbn [negb andb] in X.
  destruct X as (_ & _ & X). destruct X as (_ & X & _).
  { destruct k; try discriminate; [right; right; apply Hst; reflexivity|left; discriminate]. }
  apply X; assumption.
Qed.
Theorem unfunded_creation v w rv code m si (two : bool) rest (salt n off value : Z) :
  at_op g v code m si (if two then 0xF5 else 0xF0) -> static m = false ->
  si_stack si = rest ++ (if two then [salt; n; off; value] else [n; off; value]) ->
  rev_ge rv Shanghai = false \/ n <= 49152 -> h_get_balance hst w (msg_recipient m) < value ->
  let cost := 32000 + growth_cost (si_mem si) off n + (if rev_ge rv Shanghai then 2 * words n else 0) + (if two then 6 * words n else 0) in
  cost <= msg_gas m ->
  exists mem', steps_to g v w rv code m si (running rv (si_pc si + 1) (msg_gas m - cost) (si_refunds si) (rest ++ [0]) mem' []) w /\
    overwritten (si_mem si) mem' (grown (si_mem si) off n) 0 0 (fun _ => 0).
Proof.
  intros Ho Hst Hs Hn Hb cost Hc.
  assert (Hs' : si_stack si = rest ++ (if two then [if two then salt else 0; n; off; value] else [n; off; value])) by (destruct two; exact Hs).
  pose proof (op_create g Hg v w rv code m si two rest (if two then salt else 0) n off value Ho Hst Hs' ltac:(intros ->; reflexivity)) as X. cbv zeta in X.
  destruct X as (_ & _ & X). destruct (X Hn) as (_ & Y & _). apply Y; assumption.
Qed.
End Output.
