(** The rules of the conformance tests describe the EVM: stack, memory, copies, logs, results, storage, accounts and jumps. *)
From Verif Require Import Base Host Uint256 SpecEvm SpecVm ArithFacts MemFacts JumpFacts GoAdapter GoStorage LfvmCode Lfvm LfvmSim LfvmOps SpecLfvm Ct SpecCt PropFacts2 CtRules SpecRules CtRuleFacts CtMemFacts CtSound OpFacts2 OpFacts4.
From Coq Require Import Lia ZArith List Bool.
Import ListNotations.
Open Scope Z_scope.

Ltac num := vm_compute; discriminate.
Ltac opened := let b := fresh "b" in intros b rv st co hc hop h1 h2 hg; cbn [i_op i_effect i_conditions] in *; unfold G_base, G_verylow, G_low, G_mid, G_high in *; unfold CtMemFacts.Exec; cbn [exec]; unfold Paid, paid; pose proof (co_words _ _ _ co) as hw; pose proof (co_gas_small _ _ _ co) as hgs; pose proof (co_gas _ _ _ co) as hg0; pose proof (co_price _ _ _ co) as hprice; pose proof (co_rel _ _ _ co) as hrel; pose proof (mem_small _ _ _ _ hrel hg0 hprice) as hsmall.
Ltac entry_ok := eapply plain_ok; [reflexivity|discriminate|num|reflexivity|reflexivity|reflexivity|num|opened].
(** names for the arguments *)
Ltac arg st h1 hw x hx := destruct st as [|x st]; [cbn in h1; lia|]; apply Forall_cons_iff in hw; destruct hw as [hx hw].

Section Sound.
Variable tx : tx_context.
Variable keccak hash : list Z -> Z.
Hypothesis Htx : tx_ok tx.
Notation H := (go_host (ct_rc tx) tx).
Notation call := (answers ct_Call).
Notation msg_of b := (message_of (ToVmParameters hash b)).
Notation Step := (Step tx keccak hash).
Notation Exec := (Exec tx keccak hash).
Notation rule_ok := (rule_ok tx keccak hash).
Notation holds := (holds tx).

(** ** Payments *)
Lemma pay_ok b pc g rf st m last w c c' f k k' : f_gas f = g -> 0 <= g < 2 ^ 54 -> (c = c' /\ 0 <= c) \/ (g < c /\ g < c') ->
  (c = c' -> 0 <= c <= g -> agrees b (k (mk b pc (g - c) rf st m last w)) (k' (with_gas (g - c) f))) ->
  agrees b (pay c (mk b pc g rf st m last w) k) (charge c' f k').
Proof.
  intros e hg hc hk. unfold pay, charge. rewrite e. states. destruct (Z.ltb_spec g c); destruct (Z.ltb_spec g c'); try lia; [apply agrees_failed|].
  assert (c = c') by lia. subst c'. rewrite s64_small by lia. states. apply hk; lia.
Qed.
(** expansion of the memory and another fee *)
Lemma pay2_ok b pc g rf st m last w c1 c2 fee1 fee2 f k k' : f_gas f = g -> 0 <= g < 2 ^ 54 -> (c1 = fee1 /\ 0 <= c1) \/ (g < c1 /\ g < fee1) -> 0 <= fee1 -> 0 <= fee2 -> (c1 <= g -> c2 = fee2) ->
  (c1 = fee1 -> 0 <= c1 <= g -> c1 + c2 <= g -> agrees b (k (mk b pc (g - (c1 + c2)) rf st m last w)) (k' (with_gas (g - (c1 + c2)) f))) ->
  agrees b (pay c1 (mk b pc g rf st m last w) (fun s => pay c2 s k)) (charge (fee2 + fee1) f k').
Proof.
  intros e hg hc h1 h2 he hk. unfold pay, charge. rewrite e. states. destruct (Z.ltb_spec g c1); destruct (Z.ltb_spec g (fee2 + fee1)); try lia; [apply agrees_failed| |].
  - assert (c1 = fee1) by lia. rewrite he in * by lia. rewrite s64_small by lia. states. destruct (Z.ltb_spec (g - c1) fee2); [apply agrees_failed|]. lia.
  - assert (c1 = fee1) by lia. rewrite he in * by lia. rewrite s64_small by lia. states. destruct (Z.ltb_spec (g - c1) fee2); [lia|]. rewrite s64_small by lia. states. subst c1.
    replace (g - fee1 - fee2) with (g - (fee1 + fee2)) by lia. replace (g - (fee2 + fee1)) with (g - (fee1 + fee2)) by lia. apply hk; lia.
Qed.
(** the sum of both *)
Lemma paysum_ok b pc g rf st m last w c1 c2 fee1 fee2 f k k' : f_gas f = g -> 0 <= g < 2 ^ 54 -> (c1 = fee1 /\ 0 <= c1 < 2 ^ 62) \/ (c1 = maxInt64 /\ g < fee1) -> 0 <= fee1 -> 0 <= fee2 -> 0 <= c2 < 2 ^ 62 -> (c1 <= g -> c2 = fee2) ->
  (c1 = fee1 -> 0 <= c1 -> c1 + c2 <= g -> agrees b (k (mk b pc (g - (c1 + c2)) rf st m last w)) (k' (with_gas (g - (c1 + c2)) f))) ->
  agrees b (match sumWithOverflow 0 [c1; c2] with None => failed (mk b pc g rf st m last w) | Some c => pay c (mk b pc g rf st m last w) k end) (charge (fee2 + fee1) f k').
Proof.
  intros e hg hc h1 h2 h3 he hk. rewrite sum2 by (unfold maxInt64 in *; lia). destruct (Z.ltb_spec (c1 + c2) (2 ^ 63)).
  - apply pay_ok; [exact e|exact hg| |].
    + destruct hc as [[hc hc']|[hc hc']]; [destruct (Z_le_gt_dec c1 g) as [kk|kk]; [left; rewrite he by exact kk; lia|right; lia]|right; unfold maxInt64 in *; lia].
    + intros h4 h5. destruct hc as [[hc hc']|[hc hc']]; [|unfold maxInt64 in *; lia]. apply hk; lia.
  - unfold charge. rewrite e. destruct (Z.ltb_spec g (fee2 + fee1)); [apply agrees_failed|]. unfold maxInt64 in *; lia.
Qed.
(** results *)
Lemma agrees_stop b pc gas rf st m last w d st' ret f : st' <> CtRunning -> st' <> CtFailed -> 
  ct_after b (Halt ret d f) = ct_update b st' 0 (f_gas f) (f_refund f) [] [] [] d (f_world f) -> gas = f_gas f -> rf = f_refund f -> w = f_world f ->
  agrees b (Ok (set_status st' (set_ret d (mk b pc gas rf st m last w)))) (Halt ret d f).
Proof.
  intros h1 h2 e -> -> ->. eexists. split; [reflexivity|]. rewrite e. Transparent mk. unfold same_state, ct_update, mk, set_status, set_ret. Opaque mk.
  cbn [ct_stat ct_revision ct_readonly ct_pc ct_gas ct_refund ct_code ct_mem ct_self ct_caller ct_value ct_calldata ct_last ct_ret ct_world ct_stack].
  split; [reflexivity|]. intros _. repeat (split; [reflexivity|]). destruct st'; try reflexivity. congruence.
Qed.
Lemma expand_fee (a off n : Z) : 0 <= a -> 0 <= Gmem (expand a off n) - Gmem a.
Proof. intros. pose proof (Gmem_mono a (expand a off n)). pose proof (expand_ge a off n). lia. Qed.

(** ** Memory *)
Lemma memory_ok : Forall rule_ok memoryRules.
Proof.
  unfold memoryRules. each.
  - entry_ok. arg st h1 hw off ho. unfold i_mload. cbn [f_stack]. states.
    destruct (expansion _ _ _ off 32 (ct_gas b - 3) hrel ho ltac:(unfold is_word, U; lia) ltac:(lia) ltac:(lia)) as (c & o & z & -> & hz & ho' & hx).
    apply pay_ok; [reflexivity|lia|unfold mem_fee; cbn [f_active]; unfold maxInt64 in *; lia|]. intros e hp. destruct hx as [(hx & hx1 & hx2 & hx3 & hx4)|[-> _]]; [|unfold maxInt64 in *; lia].
    destruct (hx4 ltac:(lia)) as (-> & hx5 & hx6). rewrite (read_ok _ _ _ _ _ _ _ _ _ _ _ _ hrel hsmall) by lia. states. frames. unfold touch. frames.
    rewrite setBytes_be by (rewrite read_bytes_zlen; lia). apply agrees_next. apply grow_ok; assumption || lia.
  - entry_ok. arg st h1 hw off ho. arg st h1 hw v hv. unfold i_mstore. cbn [f_stack]. states.
    destruct (expansion _ _ _ off 32 (ct_gas b - 3) hrel ho ltac:(unfold is_word, U; lia) ltac:(lia) ltac:(lia)) as (c & o & z & -> & hz & ho' & hx).
    apply pay_ok; [reflexivity|lia|unfold mem_fee; cbn [f_active]; unfold maxInt64 in *; lia|]. intros e hp. destruct hx as [(hx & hx1 & hx2 & hx3 & hx4)|[-> _]]; [|unfold maxInt64 in *; lia].
    destruct (hx4 ltac:(lia)) as (-> & hx5 & hx6). rewrite bytes32_be. assert (hl : zlen (be_bytes 32 v) = 32) by (unfold zlen; rewrite be_bytes_length; reflexivity).
    destruct (write_ok b (ct_pc b + 1) (ct_gas b - 3 - c) (ct_refund b) st _ (ct_last b) (ct_world b) _ _ off (be_bytes 32 v) hrel hsmall (be_bytes_byte _ _) ltac:(rewrite hl; lia)) as (m' & -> & hm'). frames. unfold touch. frames.
    rewrite hl in hm'. apply agrees_next. exact hm'.
  - entry_ok. arg st h1 hw off ho. arg st h1 hw v hv. unfold i_mstore8. cbn [f_stack]. states.
    destruct (expansion _ _ _ off 1 (ct_gas b - 3) hrel ho ltac:(unfold is_word, U; lia) ltac:(lia) ltac:(lia)) as (c & o & z & -> & hz & ho' & hx).
    apply pay_ok; [reflexivity|lia|unfold mem_fee; cbn [f_active]; unfold maxInt64 in *; lia|]. intros e hp. destruct hx as [(hx & hx1 & hx2 & hx3 & hx4)|[-> _]]; [|unfold maxInt64 in *; lia].
    destruct (hx4 ltac:(lia)) as (-> & hx5 & hx6). assert (eb : nth 31 (bytes32 v) 0 = v mod 256) by (rewrite bytes32_be; unfold be_bytes; cbn [seq map nth]; replace (Z.of_nat (32 - 1 - 31)) with 0 by reflexivity; rewrite Z.pow_0_r, Z.div_1_r; reflexivity). rewrite eb.
    destruct (write_ok b (ct_pc b + 1) (ct_gas b - 3 - c) (ct_refund b) st _ (ct_last b) (ct_world b) _ _ off [v mod 256] hrel hsmall ltac:(constructor; [unfold is_byte; apply Z.mod_pos_bound; lia|constructor]) ltac:(cbn; lia)) as (m' & -> & hm'). frames. unfold touch. frames.
    apply agrees_next. exact hm'.
Qed.
Lemma sha3_ok : Forall rule_ok (sha3Rules keccak).
Proof.
  unfold sha3Rules. entry_ok. arg st h1 hw off ho. arg st h1 hw n hn. unfold i_sha3. cbn [f_stack]. states.
  destruct (expansion _ _ _ off n (ct_gas b - 30) hrel ho hn ltac:(lia) ltac:(lia)) as (c & o & z & -> & hz & ho' & hx). rewrite word_costs by lia.
  pose proof (expand_fee (zlen (ct_mem b)) off n ltac:(lia)) as hf. pose proof (words_nonneg n ltac:(unfold is_word in hn; lia)) as hwn.
  apply pay2_ok; [reflexivity|lia|unfold mem_fee; cbn [f_active]; unfold maxInt64 in *; lia|unfold mem_fee; cbn [f_active]; lia|lia| |].
  - intros e. destruct hx as [(hx & hx1 & hx2 & hx3 & hx4)|[hx hx']]; [rewrite hx2; reflexivity|unfold maxInt64 in *; lia].
  - intros e e1 e2. destruct hx as [(hx & hx1 & hx2 & hx3 & hx4)|[hx hx']]; [|pose proof (words_nonneg z); unfold maxInt64 in *; lia]. rewrite hx2 in *. unfold is_word in hn.
    assert (eh : Hash keccak o n (mk b (ct_pc b + 1) (ct_gas b - 30 - (c + 6 * words n)) (ct_refund b) st (ct_mem b) (ct_last b) (ct_world b)) =
      Ok (keccak (read_bytes (data_at (ct_mem b)) off n), mk b (ct_pc b + 1) (ct_gas b - 30 - (c + 6 * words n)) (ct_refund b) st (Grow off n (ct_mem b)) (ct_last b) (ct_world b))).
    { unfold Hash. states. destruct (Z.ltb_spec 0 n) as [hp|hp].
      - destruct (hx4 ltac:(lia)) as (-> & hx5 & hx6). pose proof (read_ok b (ct_pc b + 1) (ct_gas b - 30 - (c + 6 * words n)) (ct_refund b) st _ (ct_last b) (ct_world b) _ _ off n hrel hsmall ltac:(lia) ltac:(lia)) as hr.
        unfold Read in hr. destruct (Z.eqb_spec n 0); [lia|]. rewrite mk_mem in hr. destruct (sub (Grow off n (ct_mem b)) off (u64 (off + n))) as [d| |]; cbn [rbind] in *; try discriminate. injection hr as ->. states. reflexivity.
      - assert (ez : n = 0) by lia. rewrite ez. cbn [rbind]. unfold Grow. cbn [Z.eqb]. states; reflexivity. }
    rewrite eh. states. frames. unfold touch. frames. apply agrees_next. apply grow_ok; try assumption; try lia.
Qed.

(** ** Data copies *)
Lemma padded_ok d off n : zlen d < 2 ^ 63 -> 0 <= off -> 0 <= n < 2 ^ 62 ->
  (do! b <- sub d (Z.min off (zlen d)) (Z.min (u64 (Z.min off (zlen d) + n)) (zlen d)); Ok (RightPad b n)) = Ok (data_bytes d off n).
Proof.
  intros hd ho hn. pose proof (zlen_nonneg d) as h0. rewrite (u64_small (Z.min off (zlen d) + n)) by lia. unfold sub. set (s := Z.min off (zlen d)). set (e := Z.min (s + n) (zlen d)).
  assert (he : (0 <=? s) && (s <=? e) && (e <=? zlen d) = true) by lia. rewrite he. cbn [rbind]. f_equal.
  assert (hl : zlen (slice d s (e - s)) = e - s) by (apply slice_zlen; lia). unfold RightPad. rewrite (firstn_all2 (slice d s (e - s))) by (unfold zlen in *; lia). rewrite hl.
  apply list_data_ext; [rewrite zlen_app, zlen_zeros, hl, data_bytes_zlen; lia|]. intros i hi. rewrite zlen_app, zlen_zeros, hl in hi. rewrite data_bytes_read, read_bytes_at by lia. rewrite data_at_app by lia. rewrite hl.
  destruct (Z.ltb_spec i (e - s)).
  - rewrite slice_read, read_bytes_at by lia. f_equal. lia.
  - rewrite data_at_zeros. rewrite data_at_out by lia. reflexivity.
Qed.
Lemma clipped_ok d off n : zlen d < 2 ^ 63 -> 0 <= off -> 0 <= n < 2 ^ 62 -> clipped d off n = Ok (data_bytes d off n).
Proof.
  intros hd ho hn. pose proof (zlen_nonneg d) as h0. unfold clipped. assert (es : (if zlen d <? off then zlen d else u64 off) = Z.min off (zlen d)) by (destruct (Z.ltb_spec (zlen d) off); [lia|rewrite u64_small by lia; lia]).
  rewrite es. apply padded_ok; assumption.
Qed.
(** expansion of the memory and a fee for each word, before something is written *)
Lemma mempay_ok b pc g rf st m last w a mg dst n K o : mem_rel m mg a -> 0 <= g -> g + Gmem a < 2 ^ 54 -> is_word dst -> is_word n ->
  (g < 3 * words n + (Gmem (expand a dst n) - Gmem a) -> exists e f, o = Fail e f) ->
  (3 * words n + (Gmem (expand a dst n) - Gmem a) <= g -> n < 2 ^ 37 -> forall o', (n <> 0 -> o' = dst /\ 0 <= dst /\ dst + n < 2 ^ 37) ->
     agrees b (K o' n (mk b pc (g - (3 * words n + (Gmem (expand a dst n) - Gmem a))) rf st m last w)) o) ->
  agrees b (let '(cost, destOffset, size) := ExpansionCosts dst n (ct_mem (mk b pc g rf st m last w)) in
            match sumWithOverflow 0 [cost; s64 (u64 (3 * SizeInWords size))] with
            | None => failed (mk b pc g rf st m last w)
            | Some cost => pay cost (mk b pc g rf st m last w) (K destOffset size)
            end) o.
Proof.
  intros hm hg hp hd hn hF hO. rewrite mk_mem. pose proof (mem_small _ _ _ _ hm hg hp) as hs. assert (hg54 : g < 2 ^ 54) by (pose proof (Gmem_nonneg a); lia).
  destruct (expansion _ _ _ dst n g hm hd hn hg hp) as (c & o' & z & -> & hz & ho' & hx). rewrite word_costs by lia. pose proof (words_nonneg z ltac:(lia)) as hwz. pose proof (words_nonneg n ltac:(unfold is_word in hn; lia)) as hwn. pose proof (expand_fee a dst n ltac:(lia)) as hf.
  assert (hwz2 : words z < 2 ^ 60) by (unfold words; apply Z.div_lt_upper_bound; lia). unfold is_word in hn.
  assert (fails : agrees b (failed (mk b pc g rf st m last w)) o \/ 3 * words n + (Gmem (expand a dst n) - Gmem a) <= g).
  { destruct (Z_lt_ge_dec g (3 * words n + (Gmem (expand a dst n) - Gmem a))) as [k1|k1]; [left|right; lia]. destruct (hF k1) as (e & f & ->). apply agrees_failed. }
  rewrite sum2 by (unfold maxInt64 in *; lia). destruct hx as [(hx & hx1 & hx2 & hx3 & hx4)|[hx hx']].
  - subst z c. assert (e1 : Gmem (expand a dst n) - Gmem a + 3 * words n <? 2 ^ 63 = true) by lia. rewrite e1. unfold pay. rewrite mk_gas. destruct (Z.ltb_spec g (Gmem (expand a dst n) - Gmem a + 3 * words n)); [destruct fails; [assumption|lia]|].
    rewrite s64_small by lia. rewrite mk_set_gas. replace (g - (Gmem (expand a dst n) - Gmem a + 3 * words n)) with (g - (3 * words n + (Gmem (expand a dst n) - Gmem a))) by lia. apply hO; [lia|assumption|exact hx4].
  - destruct fails as [fails|]; [|lia]. destruct (Z.ltb_spec (c + 3 * words z) (2 ^ 63)); [|exact fails]. unfold pay. rewrite mk_gas. assert (e1 : g <? c + 3 * words z = true) by (unfold maxInt64 in *; lia). rewrite e1. exact fails.
Qed.
Lemma write_to b pc g rf st m last w a mg dst o d : mem_rel m mg a -> 0 <= a < 2 ^ 37 -> Forall is_byte d -> (zlen d <> 0 -> o = dst /\ 0 <= dst /\ dst + zlen d < 2 ^ 37) ->
  exists m', Write d o (mk b pc g rf st m last w) = Ok (mk b pc g rf st m' last w) /\ mem_rel m' (write_bytes mg dst d) (expand a dst (zlen d)).
Proof.
  intros hm ha hd ho. destruct (write_ok b pc g rf st m last w mg a o d hm ha hd ltac:(intros k; destruct (ho k) as (-> & k2 & k3); auto)) as (m' & e & hm'). exists m'. split; [exact e|]. destruct (Z.eq_dec (zlen d) 0) as [hz|hz].
  - pose proof (zlen_0_nil d hz) as ->. unfold expand in *. cbn [zlen length Z.of_nat Z.eqb] in *. eapply mem_rel_ext; [exact hm'|]. intros i. rewrite !write_bytes_nil. reflexivity.
  - destruct (ho hz) as (-> & _). exact hm'.
Qed.
Lemma copy_ok b pc g rf st m last w a mg dst off n d data k o : mem_rel m mg a -> 0 <= g -> g + Gmem a < 2 ^ 54 -> is_word dst -> is_word off -> is_word n -> zlen d < 2 ^ 63 -> Forall is_byte d ->
  (forall g', data (mk b pc g' rf st m last w) = d) ->
  (g < 3 * words n + (Gmem (expand a dst n) - Gmem a) -> exists e f, o = Fail e f) ->
  (3 * words n + (Gmem (expand a dst n) - Gmem a) <= g -> forall m', mem_rel m' (write_bytes mg dst (data_bytes d off n)) (expand a dst n) ->
     agrees b (k (mk b pc (g - (3 * words n + (Gmem (expand a dst n) - Gmem a))) rf st m' last w)) o) ->
  agrees b (copyOf dst off n data (mk b pc g rf st m last w) k) o.
Proof.
  intros hm hg hp hd ho hn hl hb hdata hF hO. unfold copyOf. pose proof (mem_small _ _ _ _ hm hg hp) as hs. unfold is_word in ho.
  apply (mempay_ok _ _ _ _ _ _ _ _ a mg dst n (fun destOffset size s => do! d <- clipped (data s) off size; do! s <- Write d destOffset s; k s)); try assumption.
  intros hge hn' o' ho'. unfold is_word in hn. rewrite hdata. rewrite clipped_ok by lia. cbn [rbind]. assert (hzl : zlen (data_bytes d off n) = n) by (rewrite data_bytes_zlen; lia).
  destruct (write_to b pc (g - (3 * words n + (Gmem (expand a dst n) - Gmem a))) rf st m last w a mg dst o' (data_bytes d off n) hm hs ltac:(apply data_bytes_byte; assumption) ltac:(rewrite hzl; assumption)) as (m' & -> & hm'). cbn [rbind]. apply hO; [exact hge|]. rewrite hzl in hm'. exact hm'.
Qed.
Lemma copyRules_ok op d data : SpecEvm.instruction op = Some (mkInstr 3 0 3 Istanbul false) -> op <> 0 -> (forall b rv f, Exec b rv op f = i_copy (d b) f) ->
  (forall b, ct_ok b -> Forall is_byte (d b) /\ zlen (d b) < 2 ^ 63) -> (forall b pc g rf st m last w, data (mk b pc g rf st m last w) = d b) -> Forall rule_ok (copyRules op data).
Proof.
  intros hi h0 hx hd hdata. unfold copyRules. eapply plain_ok; [exact hi|exact h0|num|reflexivity|reflexivity|reflexivity|num|]. intros b rv st co hc hop h1 h2 hg. cbn [i_op i_effect i_conditions] in *. rewrite hx. unfold Paid, paid.
  pose proof (co_words _ _ _ co) as hw; pose proof (co_gas_small _ _ _ co) as hgs; pose proof (co_gas _ _ _ co) as hg0; pose proof (co_price _ _ _ co) as hprice; pose proof (co_rel _ _ _ co) as hrel.
  arg st h1 hw dst h3. arg st h1 hw off h4. arg st h1 hw n h5. unfold i_copy. cbn [f_stack]. states. destruct (hd b (tst_ok b (co_test _ _ _ co))) as [hd1 hd2]. unfold mem_fee. cbn [f_active].
  apply (copy_ok _ _ _ _ _ _ _ _ (zlen (ct_mem b)) (data_at (ct_mem b)) dst off n (d b)); try assumption; try lia; [intros; apply hdata| |]; unfold charge; cbn [f_gas]; intros hge; destruct (Z.ltb_spec (ct_gas b - 3) (3 * words n + (Gmem (expand (zlen (ct_mem b)) dst n) - Gmem (zlen (ct_mem b))))); try lia.
  - eauto.
  - intros m' hm'. unfold NoEffect. frames. unfold touch. frames. apply agrees_next. exact hm'.
Qed.
Lemma codecopy_ok : Forall rule_ok (copyRules 0x39 (fun s => ct_code s)).
Proof. apply (copyRules_ok _ (fun b => ct_code b)); try reflexivity; [discriminate|]. intros b [? ? ? ? ? ? ? ? ? ? ? ? ? ? ?]. split; [assumption|lia]. Qed.
Lemma calldatacopy_ok : Forall rule_ok (copyRules 0x37 (fun s => ct_calldata s)).
Proof. apply (copyRules_ok _ (fun b => ct_calldata b)); try reflexivity; [discriminate|]. intros b [? ? ? ? ? ? ? ? ? ? ? ? ? ? ?]. split; assumption. Qed.
Lemma calldataload_ok : Forall rule_ok calldataloadRules.
Proof.
  unfold calldataloadRules. entry_ok. arg st h1 hw off ho. unfold i_calldataload. frames. states. change (msg_input (msg_of b)) with (ct_calldata b). unfold is_word in ho.
  pose proof (tst_ok b (co_test _ _ _ co)) as ok. pose proof (ctk_data_len b ok) as hl. unfold isUint64. destruct (Z.ltb_spec off (2 ^ 64)).
  - pose proof (padded_ok (ct_calldata b) off 32 hl ltac:(lia) ltac:(lia)) as hp. destruct (sub (ct_calldata b) (Z.min off (zlen (ct_calldata b))) (Z.min (u64 (Z.min off (zlen (ct_calldata b)) + 32)) (zlen (ct_calldata b)))) as [v| |]; cbn [rbind] in *; try discriminate. injection hp as ->. states.
    rewrite setBytes_be. apply agrees_next. exact hrel.
  - assert (ez : be (data_bytes (ct_calldata b) off 32) = 0).
    { assert (e : data_bytes (ct_calldata b) off 32 = zeros 32). { apply list_data_ext; [reflexivity|]. intros i hi. rewrite data_bytes_zlen in hi. rewrite data_bytes_read, read_bytes_at, data_at_zeros by lia. apply data_at_out. lia. } rewrite e. reflexivity. }
    rewrite ez. states. apply agrees_next. exact hrel.
Qed.
Lemma returndatacopy_ok : Forall rule_ok returndatacopyRules.
Proof.
  unfold returndatacopyRules. entry_ok. arg st h1 hw dst hdd. arg st h1 hw off ho. arg st h1 hw n hn. unfold i_returndatacopy. cbn [f_stack]. states.
  pose proof (tst_ok b (co_test _ _ _ co)) as ok. pose proof (ctk_last_len b ok) as hl. pose proof (ctk_last b ok) as hlb. unfold mem_fee. cbn [f_active].
  assert (eb : negb (isUint64 off) || negb (isUint64 n) || (u64 (u64 off + u64 n) <? u64 off) || (zlen (ct_last b) <? u64 (u64 off + u64 n)) = (zlen (ct_last b) <? off + n)).
  { unfold is_word in ho, hn. unfold isUint64. destruct (Z.ltb_spec off (2 ^ 64)) as [e1|e1]; cbn [negb orb]; [|lia]. destruct (Z.ltb_spec n (2 ^ 64)) as [e2|e2]; cbn [negb orb]; [|lia].
    rewrite (u64_small off), (u64_small n) by lia. destruct (Z.ltb_spec (off + n) (2 ^ 64)).
    - rewrite u64_small by lia. lia.
    - assert (e3 : u64 (off + n) = off + n - 2 ^ 64) by (unfold u64; symmetry; apply (Z.mod_unique _ _ 1); lia). rewrite e3. lia. }
  rewrite eb. destruct (Z.ltb_spec (zlen (ct_last b)) (off + n)) as [hb|hb].
  { unfold charge. cbn [f_gas]. destruct (Z.ltb_spec (ct_gas b - 3) (3 * words n + (Gmem (expand (zlen (ct_mem b)) dst n) - Gmem (zlen (ct_mem b))))); [apply agrees_failed|]. frames. destruct (Z.ltb_spec (zlen (ct_last b)) (off + n)); [apply agrees_failed|lia]. }
  assert (hoff : 0 <= off /\ 0 <= n) by (unfold is_word in ho, hn; lia). rewrite (u64_small off), (u64_small n), (u64_small (off + n)) by lia.
  pose proof (mempay_ok b (ct_pc b + 1) (ct_gas b - 3) (ct_refund b) st (ct_mem b) (ct_last b) (ct_world b) (zlen (ct_mem b)) (data_at (ct_mem b)) dst n
    (fun memOffset _ s => do! d <- sub (ct_last s) off (off + n); Write d memOffset s)) as hmp. rewrite mk_mem in hmp. apply hmp; clear hmp; try assumption; try lia; unfold charge; cbn [f_gas]; intros hge;
  destruct (Z.ltb_spec (ct_gas b - 3) (3 * words n + (Gmem (expand (zlen (ct_mem b)) dst n) - Gmem (zlen (ct_mem b))))); try lia.
  - eauto.
  - intros hn' o' ho'. states. unfold sub. assert (e : (0 <=? off) && (off <=? off + n) && (off + n <=? zlen (ct_last b)) = true) by lia. rewrite e. cbn [rbind]. replace (off + n - off) with n by lia. rewrite slice_read by lia. rewrite <- data_bytes_read.
    assert (hzl : zlen (data_bytes (ct_last b) off n) = n) by (rewrite data_bytes_zlen; lia).
    destruct (write_to b (ct_pc b + 1) (ct_gas b - 3 - (3 * words n + (Gmem (expand (zlen (ct_mem b)) dst n) - Gmem (zlen (ct_mem b))))) (ct_refund b) st (ct_mem b) (ct_last b) (ct_world b) (zlen (ct_mem b)) (data_at (ct_mem b)) dst o' (data_bytes (ct_last b) off n) hrel hsmall ltac:(apply data_bytes_byte; assumption) ltac:(rewrite hzl; assumption)) as (m' & -> & hm').
    frames. destruct (Z.ltb_spec (zlen (ct_last b)) (off + n)); [lia|]. unfold touch. frames. rewrite hzl in hm'. apply agrees_next. exact hm'.
Qed.
Lemma return_ok : Forall rule_ok returnRules.
Proof.
  unfold returnRules. each; (entry_ok; arg st h1 hw off ho; arg st h1 hw n hn; unfold i_return; cbn [f_stack]; states; rewrite !Z.sub_0_r;
    destruct (expansion _ _ _ off n (ct_gas b) hrel ho hn ltac:(lia) ltac:(lia)) as (c & o & z & -> & hz & ho' & hx);
    (apply pay_ok; [reflexivity|lia|unfold mem_fee; cbn [f_active]; unfold maxInt64 in *; lia|]); intros e hp; (destruct hx as [(hx & hx1 & hx2 & hx3 & hx4)|[-> _]]; [|unfold maxInt64 in *; lia]);
    assert (hr : Read o z (mk b (ct_pc b + 1) (ct_gas b - c) (ct_refund b) st (ct_mem b) (ct_last b) (ct_world b)) = Ok (read_bytes (data_at (ct_mem b)) off n, mk b (ct_pc b + 1) (ct_gas b - c) (ct_refund b) st (Grow off n (ct_mem b)) (ct_last b) (ct_world b)));
    [subst z; unfold is_word in hn; destruct (Z.eq_dec n 0) as [->|hz0]; [reflexivity|destruct (hx4 hz0) as (-> & hx5 & hx6); apply read_ok with (a := zlen (ct_mem b)); assumption || lia]|];
    rewrite hr; cbn [rbind]; frames; unfold touch; frames; apply agrees_stop; try reflexivity; discriminate).
Qed.
End Sound.
