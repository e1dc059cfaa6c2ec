(** The call instructions, as observed through StepN. *)
From Verif Require Import Base Host SpecEvm SpecCall SpecVm MemFacts JumpFacts ArithFacts SpecFacts Vm VmFacts SpecStep StepFacts Client ClientFacts
  SpecOps SpecHost OpFacts OpFacts2 OpFacts3 OpFacts4 OpFacts5.
From Coq Require Import Lia ZArith List Bool.
Import ListNotations.

Section Ops.
Context {W : Type}.
Variable g : setting W.
Hypothesis Hg : setting_ok g.
Notation hst := (g_host g).
Notation keccak := (g_keccak g).
Notation sexec := (SpecEvm.exec hst (nested g) keccak).

Theorem op_call v w rv code m si (k : call_op) rest (greq a value ioff isz ooff osz c : Z) w1 :
  at_op g v code m si (call_byte k) ->
  si_stack si = rest ++ call_operands k greq a value ioff isz ooff osz -> (takes_value k = false -> value = 0) ->
  let addr := a mod 2 ^ 160 in
  account_access hst rv w addr = (c, w1) ->
  let size := expand (grown (si_mem si) ioff isz) ooff osz in
  let grow := Gmem size - Gmem (zlen (si_mem si)) in
  let new := match k with OpCall => negb (value =? 0) && negb (h_account_exists hst w1 addr) | _ => false end in
  let cost := grow + c + (if value =? 0 then 0 else 9000) + (if new then 25000 else 0) in
  let stipend := if value =? 0 then 0 else 2300 in
  let avail := msg_gas m - cost in
  let fwd := Z.min greq (avail - avail / 64) in
  let m' := call_message m k addr value (fwd + stipend) (data_bytes (si_mem si) ioff isz) in
  (msg_gas m < grow -> out_of_gas g v w rv code m si) /\
  (grow <= msg_gas m -> k = OpCall -> value <> 0 -> static m = true -> fails_with g v w rv code m si EVMC_STATIC_MODE_VIOLATION w) /\
  (k <> OpCall \/ value = 0 \/ static m = false ->
     (grow <= msg_gas m < cost -> fails_with g v w rv code m si EVMC_OUT_OF_GAS w1) /\
     (cost <= msg_gas m -> value <> 0 -> h_get_balance hst w1 (msg_recipient m) < value -> exists mem',
        steps_to g v w rv code m si (running rv (si_pc si + 1) (avail + 2300) (si_refunds si) (rest ++ [0]) mem' []) w1 /\
        overwritten (si_mem si) mem' size 0 0 (fun _ => 0)) /\
     (cost <= msg_gas m -> value = 0 \/ value <= h_get_balance hst w1 (msg_recipient m) -> forall r w2, nested g w1 m' = (r, w2) -> exists mem',
        steps_to g v w rv code m si (running rv (si_pc si + 1) (avail - fwd + cr_gas_left r) (si_refunds si + cr_gas_refund r)
          (rest ++ [if status_eqb (cr_status r) EVMC_SUCCESS then 1 else 0]) mem' (cr_output r)) w2 /\
        overwritten (si_mem si) mem' size ooff (Z.min osz (zlen (cr_output r))) (data_at (cr_output r)))).
Proof.
  intros A Hs Hv0 addr Hac size grow new cost stipend avail fwd m'.
  set (args := greq :: a :: (if takes_value k then [value] else []) ++ [ioff; isz; ooff; osz]).
  assert (Hs' : si_stack si = rest ++ rev args) by (rewrite Hs; unfold args, call_operands; destruct k; reflexivity).
  pose proof (top_words g v code m si _ rest _ A Hs') as Hw.
  assert (Hosz : 0 <= osz).
  { assert (In osz args) as HIn by (unfold args; destruct k; cbn; tauto). rewrite Forall_forall in Hw. apply Hw in HIn. apply HIn. }
  pose proof (zlen_nonneg rest). pose proof (sk_height _ _ _ (at_args _ _ _ _ _ _ A)) as Hh.
  pose proof (account_access_pos g _ _ _ _ _ Hac) as Hc.
  set (i := mkInstr (if takes_value k then 7 else 6) 1 0 Istanbul false).
  assert (Hi : instruction (call_byte k) = Some i) by (destruct k; reflexivity).
  assert (Hz : zlen (si_stack si) = zlen rest + in_args i) by (rewrite Hs', zlen_app, zlen_rev; destruct k; reflexivity).
  assert (Hargs : 6 <= in_args i) by (unfold i; destruct k; cbn [in_args takes_value]; lia). assert (Hres : in_results i = 1) by reflexivity. assert (Hfee : in_fee i = 0) by reflexivity.
  set (f0 := with_gas (msg_gas m - in_fee i) (frame_in m w si)).
  assert (He0 : sexec m rv code (is_dest code) (call_byte k) f0 = call_go hst (nested g) m rv k f0 greq a value ioff isz ooff osz (rev rest)).
  { transitivity (i_call hst (nested g) m rv k f0); [destruct k; reflexivity|]. rewrite i_call_eq. unfold f0. stk. rewrite Hs', rev_app_distr, rev_involutive.
    destruct k; unfold args; cbn [app takes_value]; try reflexivity; rewrite (Hv0 eq_refl); reflexivity. }
  assert (Hdep : (1024 <? msg_depth m) = false) by (apply Z.ltb_ge; pose proof (eok_depth _ _ _ (at_exec _ _ _ _ _ _ A)); lia).
  unfold call_go in He0. cbv zeta in He0. rewrite Hdep in He0.
  change (f_active f0) with (32 * words (zlen (si_mem si))) in He0. fold size in He0. rewrite Gmem_words in He0. fold grow in He0.
  change (expand (expand (32 * words (zlen (si_mem si))) ioff isz) ooff osz) with size in He0. fold grow in He0.
  assert (Hgrow : 0 <= grow).
  { unfold grow. rewrite <- (Gmem_words (zlen (si_mem si))). pose proof (expand_ge (32 * words (zlen (si_mem si))) ioff isz). pose proof (expand_ge (grown (si_mem si) ioff isz) ooff osz).
    pose proof (act_nonneg (si_mem si)). unfold grown in *. pose proof (Gmem_mono (32 * words (zlen (si_mem si))) size ltac:(unfold size, grown; lia)). lia. }
  match type of He0 with _ = charge grow f0 ?kk => set (k1 := kk) in He0 end.
  destruct (charged g Hg v w rv code m si _ i grow k1 A Hi (istanbul rv) eq_refl ltac:(lia) ltac:(lia) Hgrow He0) as [Y X].
  rewrite Hfee, Z.add_0_l in X, Y. split; [exact Y|].
  assert (Hk1 : grow <= msg_gas m -> sexec m rv code (is_dest code) (call_byte k) f0 = k1 (with_gas (msg_gas m - grow) (frame_in m w si))).
  { intros Hf. destruct (X Hf) as [_ X2]. exact X2. }
  split.
  - intros Hf Hk Hv Hst. specialize (Hk1 Hf). unfold k1 in Hk1. rewrite Hk in Hk1 at 2. rewrite Hst in Hk1. destruct (Z.eqb_spec value 0); [contradiction|]. cbn [negb andb] in Hk1.
    destruct (fail_result g Hg v w rv code m si _ i _ _ A Hi (istanbul rv) eq_refl ltac:(lia) ltac:(lia) ltac:(lia) Hk1) as (so & R1 & R2). exists so. split; [exact R1|exact R2].
  - intros Hallow.
    assert (Hns : match k with OpCall => negb (value =? 0) && static m | _ => false end = false).
    { destruct k; try reflexivity. destruct Hallow as [Hc'|[->|Hc']]; [contradiction|reflexivity|rewrite Hc'; apply andb_false_r]. }
    assert (Hk1' : grow <= msg_gas m -> _) by exact (fun Hf => Hk1 Hf). unfold k1 in Hk1'.
    rewrite Hns in Hk1'. rewrite (account_cost_is g rv (with_gas (msg_gas m - grow) (frame_in m w si)) (addr_of a) c w1 Hac) in Hk1'.
    change (f_world (with_world w1 (with_gas (msg_gas m - grow) (frame_in m w si)))) with w1 in Hk1'. change (addr_of a) with addr in Hk1'. fold new in Hk1'.
    set (c2 := c + (if negb (value =? 0) then 9000 else 0) + (if new then 25000 else 0)) in Hk1'.
    assert (Hc2 : 0 <= c2) by (unfold c2; destruct (negb _), new; lia).
    assert (Hcost : cost = grow + c2) by (unfold cost, c2; destruct (value =? 0); cbn [negb]; lia).
    match type of Hk1' with _ -> _ = charge _ _ ?kk => set (k2 := kk) in Hk1' end.
    assert (Hk2 : cost <= msg_gas m -> sexec m rv code (is_dest code) (call_byte k) f0 = k2 (with_gas avail (frame_in m w1 si))).
    { intros Hf. rewrite Hk1' by lia. unfold charge. cbn [with_world with_gas f_gas].
      destruct (Z.ltb_spec (msg_gas m - grow) c2); [lia|]. f_equal. unfold with_gas. cbn [frame_in with_world f_pc f_gas f_stack f_mem f_active f_ret f_refund f_world].
      f_equal. unfold avail. lia. }
    pose proof (fun f' => next_result g Hg v w rv code m si _ i f' A Hi (istanbul rv) eq_refl ltac:(lia) ltac:(lia)) as N. rewrite Hfee in N.
    split; [|split].
    + intros [Hp Hlt]. specialize (Hk1' Hp). unfold charge in Hk1'. cbn [with_world with_gas f_gas] in Hk1'. destruct (Z.ltb_spec (msg_gas m - grow) c2); [|lia].
      destruct (fail_result g Hg v w rv code m si _ i _ _ A Hi (istanbul rv) eq_refl ltac:(lia) ltac:(lia) ltac:(lia) Hk1') as (so & R1 & R2). exists so. split; [exact R1|exact R2].
    + intros Hf Hv Hb. specialize (Hk2 Hf). unfold k2 in Hk2. cbv zeta in Hk2.
      change (f_world (with_ret [] (with_active size (with_gas avail (frame_in m w1 si))))) with w1 in Hk2. change (self m) with (msg_recipient m) in Hk2.
      change (f_gas (with_ret [] (with_active size (with_gas avail (frame_in m w1 si))))) with avail in Hk2.
      destruct (Z.eqb_spec value 0); [contradiction|]. cbn [negb andb] in Hk2.
      destruct (Z.ltb_spec (h_get_balance hst w1 (msg_recipient m)) value); [|lia].
      destruct (N _ ltac:(lia) Hk2) as [R S]. flds. rewrite rev_involutive in R. eexists. split; [exact R|]. apply (keep_mem code _ (si_mem si) S). intros j _. reflexivity.
    + intros Hf Hb r w2 Hn'. specialize (Hk2 Hf). unfold k2 in Hk2. cbv zeta in Hk2.
      change (f_world (with_ret [] (with_active size (with_gas avail (frame_in m w1 si))))) with w1 in Hk2. change (self m) with (msg_recipient m) in Hk2.
      change (f_gas (with_ret [] (with_active size (with_gas avail (frame_in m w1 si))))) with avail in Hk2.
      change (f_mem (with_ret [] (with_active size (with_gas avail (frame_in m w1 si))))) with (data_at (si_mem si)) in Hk2.
      assert (Hnb : negb (value =? 0) && (h_get_balance hst w1 (msg_recipient m) <? value) = false).
      { destruct Hb as [->|Hb]; [reflexivity|]. apply andb_false_intro2. apply Z.ltb_ge. lia. }
      rewrite Hnb in Hk2. change (all_but_64th avail) with (avail - avail / 64) in Hk2. fold fwd in Hk2.
      match type of Hk2 with context [nested g w1 ?mm] => replace mm with m' in Hk2
        by (unfold m', stipend; rewrite data_bytes_read; destruct (value =? 0); reflexivity) end.
      rewrite Hn' in Hk2.
      destruct (N _ ltac:(lia) Hk2) as [R S]. flds. rewrite rev_involutive in R. eexists. split; [exact R|].
      refine (show_mem code _ (si_mem si) ooff (Z.min osz (zlen (cr_output r))) (data_at (cr_output r)) S _). intros j Hj. flds.
      rewrite write_eq. pose proof (zlen_nonneg (cr_output r)).
      assert (El : zlen (firstn (Z.to_nat (Z.min osz (zlen (cr_output r)))) (cr_output r)) = Z.min osz (zlen (cr_output r))).
      { unfold zlen in *. rewrite firstn_length. lia. }
      rewrite El. destruct (Z.leb_spec ooff j), (Z.ltb_spec j (ooff + Z.min osz (zlen (cr_output r)))); cbn [andb]; try reflexivity.
      rewrite !data_at_in by lia. apply nth_firstn_lt. lia.
Qed.
End Ops.
