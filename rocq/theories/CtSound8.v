(** The rules of the conformance tests describe the EVM: creations. *)
From Verif Require Import Base Host Uint256 SpecEvm SpecVm ArithFacts MemFacts JumpFacts GoAdapter GoStorage LfvmCode Lfvm LfvmSim LfvmOps SpecLfvm SpecFacts Ct SpecCt PropFacts2 CtRules SpecRules CtRuleFacts CtMemFacts CtSound CtSound2 CtSound3 CtSound4 CtSound5 CtSound6 CtSound7.
From Coq Require Import Lia ZArith List Bool.
Import ListNotations.
Open Scope Z_scope.

Section Sound.
Variable tx : tx_context.
Variable keccak hash : list Z -> Z.
Notation H := (go_host (ct_rc tx) tx).
Notation call := (answers ct_Call).
Notation msg_of b := (message_of (ToVmParameters hash b)).
Notation Exec := (Exec tx keccak hash).
Notation rule_ok := (rule_ok tx keccak hash).
Notation holds := (holds tx).

(** [q_create] when the fees have been paid *)
Definition qc_tail (b : state) (two : bool) (f3 : frame ctw) (value off n salt : Z) (s : list Z) : request :=
    if h_get_balance H (f_world f3) (self (msg_of b)) <? value then Now (yield (0 :: s) f3)
    else
      let g := all_but_64th (f_gas f3) in
      let m := mkMsg (if two then K_CREATE2 else K_CREATE) 0 (msg_depth (msg_of b) + 1) g 0 (self (msg_of b))
                     (read_bytes (f_mem f3) off n) value salt 0 None in
      Ask (f_world f3) m (fun r w =>
      let f4 := with_world w (add_refund (cr_gas_refund r)
                  (with_gas (f_gas f3 - g + cr_gas_left r) f3)) in
      match cr_status r with
      | EVMC_SUCCESS => yield (cr_create_address r :: s) f4
      | EVMC_REVERT => yield (0 :: s) (with_ret (cr_output r) f4)
      | _ => yield (0 :: s) f4
      end).
Definition qc_go (b : state) (rv : revision) (two : bool) (f : frame ctw) (value off n salt : Z) (s : list Z) : request :=
    if 1024 <? msg_depth (msg_of b) then Now (Fail CreateDepth f)
    else
    q_charge (mem_fee f off n) f (fun f1 =>
    if rev_ge rv Shanghai && (49152 <? n) then Now (Fail InitCodeTooLarge f)
    else
    q_charge ((if rev_ge rv Shanghai then 2 * words n else 0) + (if two then 6 * words n else 0)) f1 (fun f2 =>
    qc_tail b two (touch off n (with_ret [] f2)) value off n salt s)).
Lemma create_exec b rv (two : bool) f value off n salt s : f_stack f = value :: off :: n :: (if two then salt :: s else s) ->
  Exec b rv (if two then 0xF5 else 0xF0) f = answer call (qc_go b rv two f value off n (if two then salt else 0) s).
Proof. intros hs. unfold CtMemFacts.Exec. destruct two; cbn [exec]; unfold i_create, q_create; rewrite hs; reflexivity. Qed.

(** [createEffect] when the fees have been paid *)
Definition cr_tail (two : bool) (value offset size salt : Z) (s : state) : res state :=
      do! '(input, s) <- Read offset size s;
      if negb (value =? 0) && (GetBalance (ct_world s) (ct_self s) <? value) then Ok (set_last [] (push 0 s))
      else
        let limit := ct_gas s - Z.quot (ct_gas s) 64 in
        let '(res, w) := JournalCall (if two then GoCreate2 else GoCreate) (mkCallParams (ct_self s) 0 value input limit salt 0) (ct_world s) in
        let s := set_world w s in
        let s := set_gas (s64 (ct_gas s - (limit - gr_gas_left res))) s in
        let s := set_refund (s64 (ct_refund s + gr_gas_refund res)) s in
        if gr_success res then Ok (push (gr_created res) (set_last [] s)) else Ok (set_last (gr_output res) (push 0 s)).
Definition cr_after (two : bool) (value o z salt : Z) (s : state) (dyn : Z) : res state :=
  match (if two then sumWithOverflow 0 [dyn; s64 (u64 (6 * SizeInWords z))] else Some dyn) with None => failed s | Some d => pay d s (cr_tail two value o z salt) end.
Lemma create_effect b pc gs rf (two : bool) value off n salt st m last w :
  createEffect two (mk b pc gs rf (value :: off :: n :: (if two then salt :: st else st)) m last w) =
  let '(c, o, z) := ExpansionCosts off n m in
  if 4 <=? ct_revision b then
    if negb (isUint64 n) || (49152 <? z) then failed (mk b pc gs rf (if two then salt :: st else st) m last w)
    else match sumWithOverflow 0 [c; s64 (u64 (2 * SizeInWords z))] with None => failed (mk b pc gs rf (if two then salt :: st else st) m last w) | Some c => cr_after two value o z (if two then salt else 0) (mk b pc gs rf st m last w) c end
  else cr_after two value o z (if two then salt else 0) (mk b pc gs rf st m last w) c.
Proof.
  unfold createEffect. rewrite !mk_pop. cbn [rbind]. rewrite !mk_pop. cbn [rbind]. rewrite !mk_pop. cbn [rbind]. rewrite mk_mem. destruct (ExpansionCosts off n m) as [[c o] z]. cbv zeta. rewrite mk_revision.
  destruct (4 <=? ct_revision b).
  - destruct (negb (isUint64 n) || (49152 <? z)); [reflexivity|]. destruct (sumWithOverflow 0 [c; s64 (u64 (2 * SizeInWords z))]) as [d|]; [|reflexivity]. destruct two; [rewrite mk_pop|]; reflexivity.
  - destruct two; [rewrite mk_pop|]; reflexivity.
Qed.

(** what the EVM does when the fees have been paid *)
Lemma qc_tail_evm b two pc g st2 m act rf w value off n salt st :
  answer call (qc_tail b two (mkFrame pc g st2 m act [] rf w) value off n salt st) =
    if GetBalance w (ct_self b) <? value then Next (mkFrame (pc + 1) g (0 :: st) m act [] rf w)
    else
      let '(r, w') := JournalCall (if two then GoCreate2 else GoCreate) (mkCallParams (ct_self b) 0 value (read_bytes m off n) (all_but_64th g) salt 0) w in
      Next (mkFrame (pc + 1) (g - all_but_64th g + gr_gas_left r) ((if gr_success r then gr_created r else 0) :: st) m act (if gr_success r then [] else gr_output r) (rf + gr_gas_refund r) w').
Proof.
  unfold qc_tail. cbv zeta. cbn [f_world f_gas f_mem f_active f_ret f_refund f_pc f_stack]. change (h_get_balance H w (self (msg_of b))) with (GetBalance w (ct_self b)).
  destruct (GetBalance w (ct_self b) <? value); [reflexivity|]. cbn [answer]. unfold answers, ct_Call.
  match goal with |- (let '(r, w') := (let '(_, _) := (let '(_, _) := JournalCall ?k1 ?p1 ?w1 in _) in _) in _) = (let '(_, _) := JournalCall ?k2 ?p2 ?w1 in _) => assert (ek : k1 = k2); [|assert (ep : p1 = p2); [|rewrite ek, ep; destruct (JournalCall k2 p2 w1) as [r w']]] end.
  - destruct two; reflexivity.
  - destruct two; reflexivity.
  - cbn [cresult_of cr_output cr_status cr_gas_left cr_gas_refund cr_create_address]. destruct (gr_success r); reflexivity.
Qed.
(** what the rule does when the fees have been paid *)
Lemma cr_tail_rule b two value o n salt pc g rf st m2 last w inp m3 : Read o n (mk b pc g rf st m2 last w) = Ok (inp, mk b pc g rf st m3 last w) ->
  cr_tail two value o n salt (mk b pc g rf st m2 last w) =
    if negb (value =? 0) && (GetBalance w (ct_self b) <? value) then Ok (mk b pc g rf (0 :: st) m3 [] w)
    else
      let '(r, w') := JournalCall (if two then GoCreate2 else GoCreate) (mkCallParams (ct_self b) 0 value inp (g - Z.quot g 64) salt 0) w in
      Ok (mk b pc (s64 (g - (g - Z.quot g 64 - gr_gas_left r))) (s64 (rf + gr_gas_refund r)) ((if gr_success r then gr_created r else 0) :: st) m3 (if gr_success r then [] else gr_output r) w').
Proof.
  intros e3. unfold cr_tail. rewrite e3. clear e3. cbn [rbind]. rewrite mk_world, mk_selfa, mk_gas.
  destruct (negb (value =? 0) && (GetBalance w (ct_self b) <? value)); [rewrite mk_push, mk_set_last; reflexivity|]. cbv zeta.
  destruct (JournalCall _ _ _) as [r w']. rewrite mk_set_world, mk_gas, mk_set_gas, mk_refund, mk_set_refund. destruct (gr_success r); [rewrite mk_set_last, mk_push|rewrite mk_push, mk_set_last]; reflexivity.
Qed.
Lemma ctail_ok b two value off n salt o pc st st2 m2 g last act : test_state b -> pc = ct_pc b + 1 -> mem_rel m2 (data_at (ct_mem b)) act -> 0 <= act < 2 ^ 37 -> 0 <= n < 2 ^ 37 -> (n <> 0 -> o = off /\ 0 <= off /\ off + n < 2 ^ 37) ->
  0 <= g < 2 ^ 54 -> g <= ct_gas b ->
  agrees b (cr_tail two value o n salt (mk b pc g (ct_refund b) st m2 last (ct_world b)))
    (answer call (qc_tail b two (touch off n (mkFrame (ct_pc b) g st2 (data_at (ct_mem b)) act [] (ct_refund b) (ct_world b))) value off n salt st)).
Proof.
  intros ht -> hm hact hn ho hg hgle. pose proof (ctk_refund b (tst_ok b ht)) as hr0. pose proof (ctk_gas b (tst_ok b ht)) as hg0. destruct (account_ok b (ct_self b) ht) as [hbal _].
  assert (hrd : exists m3, Read o n (mk b (ct_pc b + 1) g (ct_refund b) st m2 last (ct_world b)) = Ok (read_bytes (data_at (ct_mem b)) off n, mk b (ct_pc b + 1) g (ct_refund b) st m3 last (ct_world b)) /\ mem_rel m3 (data_at (ct_mem b)) (expand act off n)).
  { destruct (Z.eq_dec n 0) as [-> |hz]; [exists m2; split; [reflexivity|exact hm]|]. destruct (ho hz) as (-> & k1 & k2). exists (Grow off n m2). split; [apply (read_ok _ _ _ _ _ _ _ _ _ _ _ _ hm hact); lia|]. apply grow_ok; try assumption; lia. }
  destruct hrd as (m3 & e3 & hm3). rewrite (cr_tail_rule _ _ _ _ _ _ _ _ _ _ _ _ _ _ _ e3). clear e3.
  unfold touch, with_active. cbn [f_world f_gas f_mem f_active f_ret f_refund f_pc f_stack]. rewrite qc_tail_evm.
  assert (eb : negb (value =? 0) && (GetBalance (ct_world b) (ct_self b) <? value) = (GetBalance (ct_world b) (ct_self b) <? value)).
  { destruct (Z.eqb_spec value 0); [|reflexivity]. cbn [negb andb]. destruct (Z.ltb_spec (GetBalance (ct_world b) (ct_self b)) value); [lia|reflexivity]. } rewrite eb.
  destruct (GetBalance (ct_world b) (ct_self b) <? value); [apply agrees_next; exact hm3|].
  assert (equot : Z.quot g 64 = g / 64) by (apply Z.quot_div_nonneg; lia). rewrite equot. fold (all_but_64th g). assert (hlim : 0 <= all_but_64th g <= g) by (unfold all_but_64th; pose proof (Z.div_pos g 64 ltac:(lia) ltac:(lia)); pose proof (Z.div_le_upper_bound g 64 g ltac:(lia) ltac:(lia)); lia).
  match goal with |- context [JournalCall ?k1 ?p1 ?w1] => pose proof (journal_ok b k1 p1 w1 ht eq_refl ltac:(cbn [cp_gas]; lia)) as hj; destruct (JournalCall k1 p1 w1) as [r w'] end. cbv zeta in hj; cbn [fst cp_gas] in hj; destruct hj as (hj1 & hj2 & hj3).
  rewrite (s64_small (g - _)) by lia. assert (er : s64 (ct_refund b + gr_gas_refund r) = ct_refund b + gr_gas_refund r) by (apply s64_id; lia). rewrite er.
  replace (g - (all_but_64th g - gr_gas_left r)) with (g - all_but_64th g + gr_gas_left r) by lia. apply agrees_next. exact hm3.
Qed.
(** what the EVM does before the creation starts *)
Lemma create_evm b rv (two sh : bool) f0 value off n salt st G mf wf : rev_ge rv Shanghai = sh -> f_gas f0 = G -> mem_fee f0 off n = mf -> (if sh then 2 * words n else 0) + (if two then 6 * words n else 0) = wf -> 0 <= mf -> 0 <= wf ->
  ((G < mf + wf \/ sh = true /\ 49152 < n) -> exists e f, answer call (qc_go b rv two f0 value off n salt st) = Fail e f) /\
  (mf + wf <= G -> (sh = true -> n <= 49152) -> answer call (qc_go b rv two f0 value off n salt st) =
     answer call (qc_tail b two (touch off n (with_ret [] (with_gas (G - mf - wf) (with_gas (G - mf) f0)))) value off n salt st)).
Proof.
  intros e1 e2 e3 e4 h0 h00. unfold qc_go. change (msg_depth (msg_of b)) with 0. change (1024 <? 0) with false. cbv beta iota. rewrite e1, e3, e4. unfold q_charge. rewrite e2. clear e1 e2 e3 e4.
  change (f_gas (with_gas (G - mf) f0)) with (G - mf).
  destruct (Z.ltb_spec G mf) as [h1|h1]; [split; [intros _; eexists _, _; reflexivity|intros h; exfalso; lia]|]. destruct sh; cbn [andb].
  - destruct (Z.ltb_spec 49152 n) as [h2|h2]; [split; [intros _; eexists _, _; reflexivity|intros _ h; specialize (h eq_refl); exfalso; lia]|].
    destruct (Z.ltb_spec (G - mf) wf) as [h3|h3]; [split; [intros _; eexists _, _; reflexivity|intros h; exfalso; lia]|]. split; [intros h; exfalso; lia|]. intros _ _. reflexivity.
  - destruct (Z.ltb_spec (G - mf) wf) as [h3|h3]; [split; [intros _; eexists _, _; reflexivity|intros h; exfalso; lia]|]. split; [intros [h|[h _]]; [exfalso; lia|discriminate]|]. intros _ _. reflexivity.
Qed.
(** the second fee and the creation itself *)
Lemma create_after b (two : bool) value n salt st o z G mf wf wn wz d R :
  (G < mf + wf -> exists e f, R = Fail e f) ->
  (mf + wf <= G -> z = n -> agrees b (cr_tail two value o n salt (mk b (ct_pc b + 1) (G - (mf + wf)) (ct_refund b) st (ct_mem b) (ct_last b) (ct_world b))) R) ->
  (if two then sumWithOverflow 0 [d; s64 (u64 (6 * SizeInWords z))] else Some d) = (if d + wz <? 2 ^ 63 then Some (d + wz) else None) ->
  0 <= G < 2 ^ 54 -> 0 <= d -> 0 <= wn -> 0 <= wz -> wf = wn + (if two then 6 * words n else 0) -> (z = n -> wz = if two then 6 * words n else 0) -> 0 <= mf -> 0 <= wf ->
  (d = mf + wn /\ z = n \/ G < d /\ G < mf) ->
  agrees b (cr_after two value o z salt (mk b (ct_pc b + 1) G (ct_refund b) st (ct_mem b) (ct_last b) (ct_world b)) d) R.
Proof.
  intros hF hS et hG hd hwn hwz ewf ez hmf hwf hdd. unfold cr_after. rewrite et. clear et.
  destruct (Z.ltb_spec (d + wz) (2 ^ 63)) as [h1|h1].
  - unfold pay. rewrite mk_gas. destruct (Z.ltb_spec G (d + wz)) as [h2|h2].
    + destruct hF as (e & f & ->); [|apply agrees_failed]. destruct hdd as [[-> h]|hdd]; [specialize (ez h); lia|lia].
    + destruct hdd as [[-> h]|hdd]; [|exfalso; lia]. specialize (ez h). replace (mf + wn + wz) with (mf + wf) in * by lia. rewrite s64_small by lia. rewrite mk_set_gas. rewrite h. apply hS; assumption.
  - destruct hF as (e & f & ->); [|apply agrees_failed]. destruct hdd as [[-> h]|hdd]; [specialize (ez h); lia|lia].
Qed.

Lemma create_go b rv (two : bool) full value off n salt st fee : ctx_ok b rv full -> is_word off -> is_word n -> 0 <= fee <= ct_gas b ->
  agrees b (createEffect two (mk b (ct_pc b + 1) (ct_gas b - fee) (ct_refund b) (value :: off :: n :: (if two then salt :: st else st)) (ct_mem b) (ct_last b) (ct_world b)))
    (answer call (qc_go b rv two (Paid b full fee) value off n (if two then salt else 0) st)).
Proof.
  intros co hw1 hw2 hfee. pose proof (co_gas_small _ _ _ co) as hgs. pose proof (co_gas _ _ _ co) as hg0. pose proof (co_price _ _ _ co) as hprice. pose proof (co_rel _ _ _ co) as hrel. pose proof (mem_small _ _ _ _ hrel hg0 hprice) as hsmall.
  pose proof (expand_fee (zlen (ct_mem b)) off n ltac:(lia)) as hmf. pose proof (words_nonneg n ltac:(unfold is_word in hw2; lia)) as hwn. pose proof (co_test _ _ _ co) as ht.
  assert (hG : 0 <= ct_gas b - fee < 2 ^ 54) by lia.
  assert (er : rev_ge rv Shanghai = (4 <=? ct_revision b)) by (rewrite (rev_at b rv Shanghai (co_rev _ _ _ co)); reflexivity).
  rewrite create_effect. destruct (expansion _ _ _ off n (ct_gas b - fee) hrel hw1 hw2 ltac:(lia) ltac:(lia)) as (c & o & z & -> & hz & ho & hx). unfold maxInt64 in hx. unfold is_word in hw2.
  set (sl := if two then salt else 0). generalize dependent (4 <=? ct_revision b). intros sh er.
  assert (hwf : 0 <= (if sh then 2 * words n else 0) + (if two then 6 * words n else 0)) by (clear - hwn; destruct sh, two; lia).
  pose proof (create_evm b rv two sh (Paid b full fee) value off n sl st _ _ _ er eq_refl eq_refl eq_refl hmf hwf) as [hF hS].
  change (f_gas (Paid b full fee)) with (ct_gas b - fee) in hF, hS. change (mem_fee (Paid b full fee) off n) with (Gmem (expand (zlen (ct_mem b)) off n) - Gmem (zlen (ct_mem b))) in hF, hS.
  set (G := ct_gas b - fee) in *. set (mf := Gmem (expand (zlen (ct_mem b)) off n) - Gmem (zlen (ct_mem b))) in *.
  set (wf := (if sh then 2 * words n else 0) + (if two then 6 * words n else 0)) in *.
  assert (hT : mf + wf <= G -> (sh = true -> n <= 49152) -> n < 2 ^ 37 -> (n <> 0 -> o = off /\ 0 <= off /\ off + n < 2 ^ 37) -> agrees b (cr_tail two value o n sl (mk b (ct_pc b + 1) (G - (mf + wf)) (ct_refund b) st (ct_mem b) (ct_last b) (ct_world b))) (answer call (qc_go b rv two (Paid b full fee) value off n sl st))).
  { intros h1 h2 h3 h4. rewrite (hS h1 h2). replace (G - mf - wf) with (G - (mf + wf)) by (clear; lia). unfold with_gas, with_ret, Paid. cbn [f_pc f_gas f_stack f_mem f_active f_ret f_refund f_world].
    apply ctail_ok; [exact ht|reflexivity|exact hrel|exact hsmall|lia|exact h4|lia|lia]. }
  assert (hwz : 0 <= words z < 2 ^ 60) by (split; [apply words_nonneg; lia|unfold words; apply Z.div_lt_upper_bound; lia]).
  generalize dependent (answer call (qc_go b rv two (Paid b full fee) value off n sl st)). intros R hF _ hT.
  assert (step : forall d, 0 <= d < 2 ^ 63 -> (d <= G -> sh = true -> n <= 49152) ->
    (d = mf + (if sh then 2 * words n else 0) /\ z = n /\ n < 2 ^ 37 /\ (n <> 0 -> o = off /\ 0 <= off /\ off + n < 2 ^ 37) \/ G < d /\ G < mf) -> agrees b (cr_after two value o z sl (mk b (ct_pc b + 1) G (ct_refund b) st (ct_mem b) (ct_last b) (ct_world b)) d) R).
  { intros d hd hle hdd. apply (create_after b two value n sl st o z G mf wf (if sh then 2 * words n else 0) (if two then 6 * words z else 0)); try assumption; try reflexivity.
    - intros h. apply hF. left. exact h.
    - intros h1 h2. destruct hdd as [(e0 & _ & h3 & h4)|hdd]; [apply hT; try assumption; apply hle; rewrite e0; clear - h1 hwn; unfold wf in h1; destruct two; lia|exfalso; clear - h1 hdd hwf; lia].
    - clear - hz hwz hd. destruct two; [rewrite word_costs by lia; apply sum2; lia|]. rewrite Z.add_0_r. destruct (Z.ltb_spec d (2 ^ 63)); [reflexivity|lia].
    - clear - hd; lia.
    - clear - hwn; destruct sh; lia.
    - clear - hwz; destruct two; lia.
    - intros ->. reflexivity.
    - destruct hdd as [(h1 & h2 & _)|hdd]; auto. }
  destruct sh.
  - destruct (negb (isUint64 n) || (49152 <? z)) eqn:el.
    + destruct hF as (e & f & ->); [|apply agrees_failed]. clear - el hx hwf. unfold isUint64 in el. lia.
    + unfold isUint64 in el. rewrite word_costs by lia. rewrite sum2 by lia. destruct hx as [(hx & hx1 & hx2 & hx3 & hx4)|[hx hx']].
      * subst z c. destruct (Z.ltb_spec (mf + 2 * words n) (2 ^ 63)) as [h|h]; [|exfalso; clear - h hwn hx1 hG el hx3 hwz; lia]. apply step; [lia|lia|]. left. auto.
      * destruct (Z.ltb_spec (c + 2 * words z) (2 ^ 63)) as [h|h]; [apply step; [lia|intros; exfalso; lia|right; lia]|destruct hF as (e & f & ->); [left; lia|apply agrees_failed]].
  - apply step; [lia|intros _; discriminate|]. destruct hx as [(hx & hx1 & hx2 & hx3 & hx4)|[hx hx']]; [left; rewrite Z.add_0_r; auto|right; lia].
Qed.
Lemma create_ok : Forall rule_ok createRules.
Proof.
  assert (ro : forall op pops a, SpecEvm.instruction op = Some (mkInstr a 1 32000 Istanbul true) -> op <> 0 -> 1 < pops <= a -> Forall rule_ok (rulesFor (mkI op 32000 pops 1 [ReadOnly true] FailEffect))).
  { intros op pops a hi h0 hp. eapply gen_ok; [exact hi|..]; cbn [i_op i_gas i_pops i_pushes in_fee in_args in_results in_since in_stateful i_effect i_conditions]; try lia.
    - intros b rv _ h. rewrite Forall_cons_iff in h. destruct h as [h _]. apply holds_ro in h. right. split; [exists b; intros; right; reflexivity|split; [reflexivity|exact h]].
    - intros b rv st _ h _ [_ hp'] _ _ _. rewrite Forall_cons_iff in h. destruct h as [h _]. apply holds_ro in h. specialize (hp' eq_refl). congruence. }
  assert (rw : forall two : bool, Forall rule_ok (rulesFor (mkI (if two then 0xF5 else 0xF0) 32000 (if two then 4 else 3) 1 [ReadOnly false] (createEffect two)))).
  { intros two. eapply (since_ok tx keccak hash _ (if two then 4 else 3) 1 32000 Istanbul true); [destruct two; reflexivity|destruct two; discriminate|num|reflexivity|destruct two; reflexivity|reflexivity|destruct two; lia| |].
    - intros b rv hin h. apply rev_in in hin. cbn [i_conditions] in h. rewrite Forall_cons_iff in h. destruct h as [h _]. apply holds_ro in h. cbn [from_rev]. split; [lia|intros _; exact h].
    - intros b rv st co hc hop h1 h2 hg. cbn [i_op i_effect] in *. pose proof (co_words _ _ _ co) as hw.
      destruct st as [|v [|off [|n rest]]]; try (destruct two; cbn in h1; lia). assert (er : exists salt s, rest = if two then salt :: s else s).
      { destruct two; [|exists 0, rest; reflexivity]. destruct rest as [|salt s]; [cbn in h1; lia|]. exists salt, s. reflexivity. }
      destruct er as (salt & s & ->). rewrite !Forall_cons_iff in hw. destruct hw as (w1 & w2 & w3 & _). rewrite (create_exec b rv two _ v off n salt s) by reflexivity. unfold paid. apply create_go; try assumption. lia. }
  unfold createRules. each; [eapply ro; [reflexivity|discriminate|lia]|apply (rw false)|eapply ro; [reflexivity|discriminate|lia]|apply (rw true)].
Qed.
End Sound.
