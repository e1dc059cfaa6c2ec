(** The rules of the conformance tests describe the EVM: SSTORE and SELFDESTRUCT. *)
From Verif Require Import Base Host Uint256 SpecEvm SpecVm ArithFacts MemFacts JumpFacts GoAdapter GoStorage LfvmCode Lfvm LfvmSim LfvmOps SpecLfvm SpecFacts Ct SpecCt PropFacts2 CtRules SpecRules CtRuleFacts CtMemFacts CtSound CtSound2 CtSound3 CtSound4 CtSound5.
From Coq Require Import Lia ZArith List Bool.
Import ListNotations.
Open Scope Z_scope.

Section Sound.
Variable tx : tx_context.
Variable keccak hash : list Z -> Z.
Notation H := (go_host (ct_rc tx) tx).
Notation call := (answers ct_Call).
Notation msg_of b := (message_of (ToVmParameters hash b)).
Notation Step := (Step tx keccak hash).
Notation Exec := (Exec tx keccak hash).
Notation rule_ok := (rule_ok tx keccak hash).
Notation holds := (holds tx).

Lemma ctx_at b rv op : test_state b -> In (ct_revision b, rv) revisions -> IsCodeAt (ct_code b) (ct_pc b) = true -> code_at (ct_code b) (ct_pc b) = op -> op <> 0 -> ctx_ok b rv (rev (ct_stack b)).
Proof.
  intros ht hr hc hop h0. pose proof (tst_ok b ht) as ok. split; try assumption; try reflexivity.
  - apply Forall_rev. apply (ctk_words b ok).
  - pose proof (tst_pc b ht). assert (ct_pc b < zlen (ct_code b)). { destruct (Z_lt_ge_dec (ct_pc b) (zlen (ct_code b))); [assumption|]. unfold code_at in hop. rewrite data_at_out in hop by lia. congruence. } pose proof (ctk_size b ok). lia.
  - apply start_rel. exact ht.
  - apply (ctk_gas b ok).
  - apply (ctk_mem_price b ok).
  - pose proof (ctk_mem_price b ok). pose proof (Gmem_nonneg (zlen (ct_mem b)) (zlen_nonneg _)). lia.
Qed.

(** ** SSTORE *)
Lemma mk_start' b p g r : ct_stat b = CtRunning -> ct_ret b = [] -> set_pc p (set_gas g (set_refund r b)) = mk b p g r (rev (ct_stack b)) (ct_mem b) (ct_last b) (ct_world b).
Proof. Transparent mk. unfold mk. Opaque mk. rewrite rev_involutive. destruct b. cbn. intros -> ->. reflexivity. Qed.
Definition sst_status (b : state) (k v : Z) : storage_status := GetStorageStatus (GetOriginal (ct_world b) k) (GetCurrent (ct_world b) k) v.
Definition sst_world (b : state) (k v : Z) : ctw := if 1 <=? ct_revision b then MarkWarm k (SetCurrent k v (ct_world b)) else SetCurrent k v (ct_world b).
Lemma sstore_step b rv k v st : ctx_ok b rv (k :: v :: st) -> code_at (ct_code b) (ct_pc b) = 0x55 -> ct_readonly b = false ->
  let cold := if 1 <=? ct_revision b then negb (IsWarm (ct_world b) k) else true in
  let cost := sstore_cost rv cold (sst_status b k v) in
  if (ct_gas b <=? 2300) || (ct_gas b <? cost) then exists e f, Step b rv = Fail e f
  else Step b rv = Next (mkFrame (ct_pc b + 1) (ct_gas b - cost) st (data_at (ct_mem b)) (zlen (ct_mem b)) (ct_last b) (ct_refund b + sstore_refund rv cold (sst_status b k v)) (sst_world b k v)).
Proof.
  intros co hop hro. cbv zeta. assert (hlen : zlen (ct_stack b) = zlen (k :: v :: st)) by (rewrite <- (co_stack _ _ _ co); unfold zlen; rewrite rev_length; reflexivity).
  assert (hh : zlen (ct_stack b) <= 1024) by apply (ctk_height b (tst_ok b (co_test _ _ _ co))). rewrite hlen, !zlen_cons in *. pose proof (zlen_nonneg st) as hst.
  assert (E : Step b rv = i_sstore H (msg_of b) rv (Paid b (k :: v :: st) 0)).
  { rewrite (step_exec tx keccak hash b rv 0x55 _ (co_test _ _ _ co) hop eq_refl); cbn [in_args in_results in_fee]; [|split; [destruct rv; reflexivity|intros _; exact hro]|lia|lia].
    unfold charge. cbn [FrameIs f_gas]. pose proof (co_gas _ _ _ co). destruct (Z.ltb_spec (ct_gas b) 0); [lia|]. unfold FrameIs. rewrite (co_stack _ _ _ co). reflexivity. }
  rewrite E. clear E. unfold i_sstore, Paid. frames. rewrite Z.sub_0_r.
  destruct (Z.leb_spec (ct_gas b) 2300); cbn [orb]; [eauto|]. rewrite (rev_at b rv Berlin (co_rev _ _ _ co)). cbn [from_rev]. unfold sst_world.
  destruct (1 <=? ct_revision b) eqn:er.
  - cbn [h_access_storage h_set_storage go_host ct_rc rc_access_storage rc_set_storage]. destruct (IsWarm (ct_world b) k); cbn [negb]; unfold charge; frames;
    change (GetStorageStatus (GetOriginal (MarkWarm k (ct_world b)) k) (GetCurrent (MarkWarm k (ct_world b)) k) v) with (sst_status b k v);
    [destruct (ct_gas b <? sstore_cost rv false (sst_status b k v))|destruct (ct_gas b <? sstore_cost rv true (sst_status b k v))]; eauto.
  - cbn [h_set_storage go_host ct_rc rc_set_storage]. unfold charge; frames. change (GetStorageStatus (GetOriginal (ct_world b) k) (GetCurrent (ct_world b) k) v) with (sst_status b k v).
    destruct (ct_gas b <? sstore_cost rv true (sst_status b k v)); eauto.
Qed.
(** the table of costs and refunds *)
Definition rev_of (r : Z) : revision := match r with 0 => Istanbul | 1 => Berlin | 2 => London | 3 => Paris | 4 => Shanghai | _ => Cancun end.
Definition param_ok (p : sstoreOpParams) : bool :=
  (0 <=? ss_revision p) && (ss_revision p <=? 5) && (ss_cost p =? sstore_cost (rev_of (ss_revision p)) (negb (ss_warm p)) (ss_config p)) &&
  (ss_refund p =? sstore_refund (rev_of (ss_revision p)) (negb (ss_warm p)) (ss_config p)).
Lemma params_ok p : In p sstoreParams -> param_ok p = true.
Proof. assert (h : forallb param_ok sstoreParams = true) by (vm_compute; reflexivity). rewrite forallb_forall in h. apply h. Qed.
Lemma status_eq a b : status_is a b = true -> a = b.
Proof. destruct a, b; cbn; congruence. Qed.
Lemma sst_config b rv k v st c : ctx_ok b rv (k :: v :: st) -> holds b (StorageConfiguration c p0 p1) -> sst_status b k v = c.
Proof.
  intros co h. unfold CtRuleFacts.holds in h. cbn [check] in h. unfold p0, p1 in h. rewrite eval_param in h by lia. rewrite (co_stack _ _ _ co) in h. cbn [rbind] in h. change (znth (k :: v :: st) 0) with (Some k) in h. cbv iota in h.
  apply on_param in h; [|lia]. apply (arg1 _ _ _ _ _ _ co) in h. cbv beta in h. apply status_eq in h. symmetry. exact h.
Qed.
Lemma sst_two b rv : ctx_ok b rv (rev (ct_stack b)) -> holds b (Cmp Ge ESize 2) -> exists k v st, ctx_ok b rv (k :: v :: st) /\ rev (ct_stack b) = k :: v :: st.
Proof.
  intros co h. apply holds_size_ge in h. assert (hl : zlen (rev (ct_stack b)) = zlen (ct_stack b)) by (unfold zlen; rewrite rev_length; reflexivity).
  destruct (rev (ct_stack b)) as [|k [|v st]] eqn:e; try (cbn in hl; lia). exists k, v, st. split; [exact co|reflexivity].
Qed.
Lemma sst_costs b rv p k v st : ctx_ok b rv (k :: v :: st) -> param_ok p = true -> ct_revision b = ss_revision p -> Forall (holds b) (warmCondition p) -> sst_status b k v = ss_config p ->
  let cold := if 1 <=? ct_revision b then negb (IsWarm (ct_world b) k) else true in
  sstore_cost rv cold (sst_status b k v) = ss_cost p /\ sstore_refund rv cold (sst_status b k v) = ss_refund p.
Proof.
  intros co hp er hw es. cbv zeta. rewrite es. unfold param_ok in hp. rewrite !andb_true_iff in hp. destruct hp as [[_ h1] h2]. apply Z.eqb_eq in h1, h2. rewrite h1, h2, <- er.
  pose proof (co_rev _ _ _ co) as hr. apply rev_in in hr. unfold warmCondition in hw. rewrite <- er in hw. destruct (Z.leb_spec 1 (ct_revision b)) as [hl|hl].
  - assert (ew : IsWarm (ct_world b) k = ss_warm p). { rewrite Forall_cons_iff in hw. destruct hw as [hw _]. destruct (ss_warm p); cond0 co hw; [|apply negb_true_iff in hw]; exact hw. } rewrite ew.
    destruct hr as [[e ->]|[[-> ->]|[[-> ->]|[[-> ->]|[[-> ->]|[-> ->]]]]]]; [lia|..]; split; reflexivity.
  - destruct hr as [[-> ->]|[[e ->]|[[e ->]|[[e ->]|[[e ->]|[e ->]]]]]]; try lia. split; [reflexivity|]. destruct (ss_warm p), (ss_config p); reflexivity.
Qed.
Lemma sstore_ok : Forall rule_ok sstoreRules.
Proof.
  unfold sstoreRules. each.
  - apply Forall_flat_map, Forall_forall. intros p hin. apply params_ok in hin. constructor; [|constructor; [|constructor; [|constructor]]].
    + intros b rv ht hr hc. unfold sstoreOpRegular in *. cbn [r_conditions r_effect] in *. apply Forall_app in hc. destruct hc as [hc hwarm]. rewrite !Forall_cons_iff in hc. destruct hc as (c1 & c2 & c3 & c4 & c5 & c6 & c7 & _).
      rewrite holds_op in c3 by apply (tst_pc b ht). destruct c3 as [c3 c3']. pose proof (ctx_at b rv 0x55 ht hr c3 c3' ltac:(discriminate)) as co0. destruct (sst_two b rv co0 c6) as (k & v & st & co & es). apply holds_rev in c1. apply holds_gas_ge in c4. apply holds_ro in c5. pose proof (sst_config b rv k v st _ co c7) as cs.
      pose proof (sstore_step b rv k v st co c3' c5) as hs. destruct (sst_costs b rv p k v st co hin ltac:(lia) hwarm cs) as [k1 k2]. cbv zeta in hs. rewrite k1, k2 in hs.
      assert (e0 : (ct_gas b <=? 2300) || (ct_gas b <? ss_cost p) = false) by lia. rewrite e0 in hs. rewrite hs.
      assert (hcost : 100 <= ss_cost p) by (rewrite <- k1; apply sstore_cost_lo). pose proof (sstore_refund_hi rv (if 1 <=? ct_revision b then negb (IsWarm (ct_world b) k) else true) (sst_status b k v)) as hrf. rewrite k1, k2 in hrf.
      pose proof (co_gas_small _ _ _ co) as hgs. pose proof (co_gas _ _ _ co) as hg0. pose proof (ctk_refund b (tst_ok b ht)) as hr0.
      rewrite (s64_small (ct_gas b - ss_cost p)) by lia. assert (er : s64 (ct_refund b + ss_refund p) = ct_refund b + ss_refund p) by (apply s64_id; lia). rewrite er. unfold u16. pose proof (co_pc _ _ _ co). rewrite Z.mod_small by lia.
      cbv zeta. rewrite (mk_start' b _ _ _ (ctk_running b (tst_ok b ht)) (tst_ret b ht)), es. states. cbv zeta. states.
      replace (if 1 <=? ct_revision b then mk b (ct_pc b + 1) (ct_gas b - ss_cost p) (ct_refund b + ss_refund p) st (ct_mem b) (ct_last b) (MarkWarm k (SetCurrent k v (ct_world b))) else mk b (ct_pc b + 1) (ct_gas b - ss_cost p) (ct_refund b + ss_refund p) st (ct_mem b) (ct_last b) (SetCurrent k v (ct_world b)))
        with (mk b (ct_pc b + 1) (ct_gas b - ss_cost p) (ct_refund b + ss_refund p) st (ct_mem b) (ct_last b) (sst_world b k v)) by (unfold sst_world; destruct (1 <=? ct_revision b); reflexivity).
      apply agrees_next. apply co.
    + intros b rv ht hr hc. unfold sstoreOpTooLittleGas in *. cbn [r_conditions r_effect] in *. apply Forall_app in hc. destruct hc as [hc hwarm]. rewrite !Forall_cons_iff in hc. destruct hc as (c1 & c2 & c3 & c4 & c5 & c6 & c7 & _).
      rewrite holds_op in c3 by apply (tst_pc b ht). destruct c3 as [c3 c3']. pose proof (ctx_at b rv 0x55 ht hr c3 c3' ltac:(discriminate)) as co0. destruct (sst_two b rv co0 c6) as (k & v & st & co & es). apply holds_rev in c1. apply holds_gas_lt in c4. apply holds_ro in c5. pose proof (sst_config b rv k v st _ co c7) as cs.
      pose proof (sstore_step b rv k v st co c3' c5) as hs. destruct (sst_costs b rv p k v st co hin ltac:(lia) hwarm cs) as [k1 k2]. cbv zeta in hs. rewrite k1, k2 in hs.
      assert (e0 : (ct_gas b <=? 2300) || (ct_gas b <? ss_cost p) = true) by lia. rewrite e0 in hs. destruct hs as (e & f & ->). apply agrees_fail.
    + eapply (refused tx keccak hash 0x55); [reflexivity|reflexivity| |]; cbn; tauto.
  - constructor; [|constructor]. intros b rv ht hr hc. cbn [r_conditions r_effect i_conditions app i_op i_gas] in *. rewrite !Forall_cons_iff in hc. destruct hc as (c1 & c2 & c3 & c4 & _). apply holds_gas_lt in c4.
    rewrite holds_op in c3 by apply (tst_pc b ht). destruct c3 as [c3 c3']. pose proof (ctx_at b rv 0x55 ht hr c3 c3' ltac:(discriminate)) as co0.
    assert (hf : exists e f, Step b rv = Fail e f); [|destruct hf as (e & f & ->); apply agrees_fail].
    destruct (ct_readonly b) eqn:ero; [apply (step_fails tx keccak hash b rv 0x55 _ ht c3' eq_refl); right; left; cbn; assumption|]. destruct (rev (ct_stack b)) as [|k [|v st]] eqn:es.
    1, 2: apply (step_fails tx keccak hash b rv 0x55 _ ht c3' eq_refl); right; right; left; cbn [in_args]; unfold zlen; rewrite <- rev_length, es; cbn; lia.
    pose proof (sstore_step b rv k v st co0 c3' ero) as hs. cbv zeta in hs. assert (e0 : forall x, (ct_gas b <=? 2300) || x = true) by (intros x; replace (ct_gas b <=? 2300) with true by lia; reflexivity). rewrite e0 in hs. exact hs.
  - constructor; [|constructor]. intros b rv ht hr hc. cbn [r_conditions r_effect i_pops i_op] in *. rewrite !Forall_cons_iff in hc. destruct hc as (c1 & c2 & c3 & c4 & _). apply holds_size_lt in c4. rewrite holds_op in c3 by apply (tst_pc b ht).
    destruct (step_fails tx keccak hash b rv 0x55 _ ht (proj2 c3) eq_refl) as (e & f & ->); [right; right; left; cbn; exact c4|apply agrees_fail].
Qed.

(** ** SELFDESTRUCT *)
Lemma agrees_stopped b pc gas rf st m last w out f : ct_ret b = [] -> gas = f_gas f -> rf = f_refund f -> w = f_world f ->
  agrees b (Ok (set_status CtStopped (mk b pc gas rf st m last w))) (Halt Stopped out f).
Proof.
  intros h1 -> -> ->. eexists. split; [reflexivity|]. Transparent mk. unfold same_state, ct_after, ct_update, mk, set_status. Opaque mk.
  cbn [ct_stat ct_revision ct_readonly ct_pc ct_gas ct_refund ct_code ct_mem ct_self ct_caller ct_value ct_calldata ct_last ct_ret ct_world ct_stack].
  split; [reflexivity|]. intros _. repeat (split; [reflexivity|]). symmetry. exact h1.
Qed.
Lemma selfdestruct_ok : Forall rule_ok selfdestructRules.
Proof.
  unfold selfdestructRules. each.
  - apply Forall_flat_map, Forall_forall. intros rev _. apply Forall_flat_map, Forall_forall. intros funds _. apply Forall_flat_map, Forall_forall. intros empty _. apply Forall_flat_map, Forall_forall. intros warm _. apply Forall_flat_map, Forall_forall. intros destructed _.
    unfold makeSelfDestructRules. eapply since_ok; [reflexivity|discriminate|num|reflexivity|reflexivity|reflexivity|num| |opened].
    { intros b rv hin h. apply rev_in in hin. cbn [i_conditions] in h. rewrite Forall_cons_iff in h. destruct h as [h _]. apply holds_ro in h. cbn [from_rev]. split; [lia|intros _; exact h]. }
    arg st h1 hw a ha. destruct (account_ok b (ct_self b) (co_test _ _ _ co)) as [hbal _]. pose proof (ctk_refund b (tst_ok b (co_test _ _ _ co))) as hr0. clear hc.
    unfold selfDestructEffect. states. unfold i_selfdestruct. frames. change (addr_of a) with (bytes20 a). cbn [h_get_balance h_account_exists go_host ct_rc rc_balance]. rewrite (rev_at b rv Berlin (co_rev _ _ _ co)), (rev_at b rv London (co_rev _ _ _ co)). cbn [from_rev].
    change (SpecEvm.self (msg_of b)) with (ct_self b). rewrite empty_eq, negb_involutive.
    assert (eb : (0 <? GetBalance (ct_world b) (ct_self b)) = negb (GetBalance (ct_world b) (ct_self b) =? 0)) by lia. rewrite eb.
    set (new := negb (GetBalance (ct_world b) (ct_self b) =? 0) && AccIsEmpty (ct_world b) (bytes20 a)).
    set (cold := (0 <? ct_revision b) && negb (AccIsWarm (ct_world b) (bytes20 a))). set (w1 := if 0 <? ct_revision b then AccMarkWarm (bytes20 a) (ct_world b) else ct_world b).
    pose proof (rev_in _ _ (co_rev _ _ _ co)) as hrev.
    match goal with |- agrees b ?L ?R => assert (eL : L = pay ((if cold then 2600 else 0) + (if new then 25000 else 0)) (mk b (ct_pc b + 1) (ct_gas b - 5000) (ct_refund b) st (ct_mem b) (ct_last b) w1) (fun s =>
      Ok (set_status CtStopped (set_world (AddDestruct (ct_self s) (bytes20 a) (ct_world (set_refund (s64 (ct_refund s + (if (ct_revision s <? 2) && negb (w_destructed (ct_world s)) then 24000 else 0))) s))) (set_refund (s64 (ct_refund s + (if (ct_revision s <? 2) && negb (w_destructed (ct_world s)) then 24000 else 0))) s)))));
      [|assert (eR : R = charge ((if new then 25000 else 0) + (if cold then 2600 else 0)) (mkFrame (ct_pc b) (ct_gas b - 5000) (a :: st) (data_at (ct_mem b)) (zlen (ct_mem b)) (ct_last b) (ct_refund b) w1) (fun f2 =>
         Halt Stopped [] (mkFrame (ct_pc b + 1) (f_gas f2) st (f_mem f2) (f_active f2) (f_ret f2) (f_refund f2 + (if (ct_revision b <? 2) && negb (w_destructed (ct_world b)) then 24000 else 0)) (AddDestruct (ct_self b) (bytes20 a) (f_world f2)))))]
    end.
    + unfold w1, cold. destruct (Z.ltb_spec 0 (ct_revision b)); cbn [andb]; [|reflexivity]. destruct (AccIsWarm (ct_world b) (bytes20 a)) eqn:ew; cbn [negb]; states; [rewrite (warm_account _ _ ew)|]; reflexivity.
    + assert (el : (1 <=? ct_revision b) = (0 <? ct_revision b)) by lia. rewrite el. assert (el2 : (ct_revision b <? 2) = negb (2 <=? ct_revision b)) by lia. rewrite el2.
      unfold w1, cold. cbn [h_access_account go_host ct_rc rc_access_account h_selfdestruct rc_selfdestruct]. destruct (0 <? ct_revision b); cbn [andb].
      * replace (match (if AccIsWarm (ct_world b) (bytes20 a) then WARM else COLD) with COLD => true | WARM => false end) with (negb (AccIsWarm (ct_world b) (bytes20 a))) by (destruct (AccIsWarm (ct_world b) (bytes20 a)); reflexivity).
        unfold charge. frames. destruct (ct_gas b - 5000 <? _); [reflexivity|]. change (w_destructed (AccMarkWarm (bytes20 a) (ct_world b))) with (w_destructed (ct_world b)).
        destruct (w_destructed (ct_world b)), (2 <=? ct_revision b); cbn [negb andb]; frames; rewrite ?Z.add_0_r; reflexivity.
      * unfold charge. frames. destruct (ct_gas b - 5000 <? _); [reflexivity|].
        destruct (w_destructed (ct_world b)), (2 <=? ct_revision b); cbn [negb andb]; frames; rewrite ?Z.add_0_r; reflexivity.
    + rewrite eL, eR. assert (hb : 0 <= (if cold then 2600 else 0) + (if new then 25000 else 0)) by (destruct cold, new; lia).
      apply pay_ok; [reflexivity|lia|left; lia|]. intros _ _. states. frames. assert (ed : w_destructed w1 = w_destructed (ct_world b)) by (unfold w1; destruct (0 <? ct_revision b); reflexivity). rewrite ed.
      assert (er : forall x : bool, s64 (ct_refund b + (if x then 24000 else 0)) = ct_refund b + (if x then 24000 else 0)) by (intros x; apply s64_id; destruct x; lia). rewrite er. apply agrees_stopped; try reflexivity. apply (tst_ret b (co_test _ _ _ co)).
  - eapply gen_ok; [reflexivity|..]; cbn [i_op i_gas i_pops i_pushes in_fee in_args in_results in_since in_stateful i_effect i_conditions]; try lia; try discriminate.
    + intros b rv _ h. rewrite Forall_cons_iff in h. destruct h as [h _]. apply holds_ro in h. right. split; [exists b; intros; right; reflexivity|split; [reflexivity|exact h]].
    + intros b rv st _ h _ [_ hp] _ _ _. rewrite Forall_cons_iff in h. destruct h as [h _]. apply holds_ro in h. specialize (hp eq_refl). congruence.
Qed.
End Sound.
