(** One round of the Go interpreter's loop simulates one step of the reference (codes of up to 65536 bytes). *)
From Verif Require Import Base Host Uint256 SpecEvm SpecCall SpecVm ArithFacts MemFacts JumpFacts SpecFacts FrameFacts VmFacts GoAdapter LfvmCode Lfvm LfvmSim LfvmOps LfvmConv LfvmExec.
From Coq Require Import Lia ZArith List Bool.
Import ListNotations.
Open Scope Z_scope.

Lemma slice_znth {A} (l : list A) q n x t : 0 <= q -> slice l q n = x :: t -> znth l q = Some x /\ q < zlen l.
Proof.
  intros hq h. unfold slice in h. rewrite znth_nth by exact hq.
  assert (e : exists t', skipn (Z.to_nat q) l = x :: t').
  { destruct (skipn (Z.to_nat q) l) as [|y t']; [destruct (Z.to_nat n); discriminate|]. destruct (Z.to_nat n); [discriminate|]. cbn in h. exists t'. congruence. }
  destruct e as [t' e]. assert (hl : (Z.to_nat q < length l)%nat).
  { destruct (Nat.lt_ge_cases (Z.to_nat q) (length l)); [assumption|]. rewrite skipn_all2 in e by assumption. discriminate. }
  split; [|unfold zlen; lia]. rewrite <- (firstn_skipn (Z.to_nat q) l), e. rewrite nth_error_app2 by (rewrite firstn_length; lia).
  rewrite firstn_length_le by lia. rewrite Nat.sub_diag. reflexivity.
Qed.
Lemma slice_one {A} (l : list A) q x : 0 <= q -> znth l q = Some x -> slice l q 1 = [x].
Proof.
  intros hq h. rewrite znth_nth in h by exact hq. unfold slice. change (Z.to_nat 1) with 1%nat. revert h. generalize (Z.to_nat q). clear. intros n. revert n.
  induction l as [|y l ih]; intros [|n] h; try discriminate; cbn in *; [congruence|]. apply ih. exact h.
Qed.

(** ** The values of PUSH instructions *)
Lemma lor_low a b k : 0 <= k -> 0 <= b < 2 ^ k -> Z.lor (Z.shiftl a k) b = a * 2 ^ k + b.
Proof.
  intros hk hb. rewrite lor_add; [rewrite Z.shiftl_mul_pow2 by lia; reflexivity|]. apply Z.bits_inj'. intros i hi. rewrite Z.land_spec, Z.bits_0.
  destruct (Z_lt_ge_dec i k); [rewrite Z.shiftl_spec_low by lia; reflexivity|].
  destruct (Z.eq_dec b 0) as [->|hz]; [rewrite Z.bits_0; apply andb_false_r|].
  rewrite (Z.bits_above_log2 b i); [apply andb_false_r|lia|]. apply Z.lt_le_trans with k; [|lia]. apply Z.log2_lt_pow2; lia.
Qed.
Lemma pack_range a b : is_byte a -> is_byte b -> 0 <= pack a b < 2 ^ 16.
Proof. unfold is_byte, pack. lia. Qed.
Lemma limb4_eq d i : 0 <= nth i d 0 -> 0 <= nth (i + 1) d 0 < 2 ^ 16 -> 0 <= nth (i + 2) d 0 < 2 ^ 16 -> 0 <= nth (i + 3) d 0 < 2 ^ 16 ->
  limb4 d i = ((nth i d 0 * 2 ^ 16 + nth (i + 1) d 0) * 2 ^ 16 + nth (i + 2) d 0) * 2 ^ 16 + nth (i + 3) d 0.
Proof.
  intros h0 h1 h2 h3. unfold limb4.
  replace (Z.shiftl (nth i d 0) 48) with (Z.shiftl (nth i d 0 * 2 ^ 16) 32) by (rewrite !Z.shiftl_mul_pow2 by lia; lia).
  rewrite <- Z.shiftl_lor. 
  replace (Z.lor (nth i d 0 * 2 ^ 16) (nth (i + 1) d 0)) with (nth i d 0 * 2 ^ 16 + nth (i + 1) d 0)
    by (rewrite <- (Z.shiftl_mul_pow2 _ 16) by lia; rewrite lor_low by lia; rewrite Z.shiftl_mul_pow2 by lia; reflexivity).
  set (x := nth i d 0 * 2 ^ 16 + nth (i + 1) d 0).
  replace (Z.shiftl x 32) with (Z.shiftl (x * 2 ^ 16) 16) by (rewrite !Z.shiftl_mul_pow2 by lia; lia).
  rewrite <- Z.shiftl_lor. replace (Z.lor (x * 2 ^ 16) (nth (i + 2) d 0)) with (x * 2 ^ 16 + nth (i + 2) d 0)
    by (rewrite <- (Z.shiftl_mul_pow2 _ 16) by lia; rewrite lor_low by lia; rewrite Z.shiftl_mul_pow2 by lia; reflexivity).
  rewrite lor_low by lia. reflexivity.
Qed.
Ltac explode d hl := repeat (destruct d as [|? d]; [discriminate hl|]); destruct d; [clear hl|discriminate hl];
  repeat match goal with h : Forall is_byte (_ :: _) |- _ => let h1 := fresh "hb" in pose proof (Forall_inv h) as h1; apply Forall_inv_tail in h end.

Section Push.
Context {W : Type}.
Variable rc : run_context W.
Variable tx : tx_context.
Variable Call : W -> go_kind -> call_params -> option call_result * W.
Variable keccak : list Z -> Z.
Variable p : parameters.
Variable lc : lcode.
Notation execute_op := (execute_op rc tx Call keccak p lc).
Notation ctx := (ctx W).

Lemma push_table b c : is_byte b -> 0x64 <= b <= 0x7E -> execute_op b c = opPush lc (b - 0x5F) c.
Proof.
  intros hb. revert b hb. apply (byte_cases (fun b => 0x64 <= b <= 0x7E -> execute_op b c = opPush lc (b - 0x5F) c)). cbn [seq map Z.of_nat Pos.of_succ_nat Pos.succ].
  repeat (apply Forall_cons; [let h := fresh in intros h; first [exfalso; lia|reflexivity]|]). apply Forall_nil.
Qed.
Lemma set_pc_same (c : ctx) k : k = 0 -> set_pc (c_pc c + k) c = c.
Proof. intros ->. destruct c. unfold set_pc. cbn. rewrite Z.add_0_r. reflexivity. Qed.
Lemma push_op b data (c : ctx) : 0x60 <= b <= 0x7F -> Forall is_byte data -> zlen data = b - 0x5F -> 0 <= c_pc c ->
  slice lc (c_pc c) (zlen (pairs data)) = match pairs data with a :: t => (b, a) :: map (pair L_DATA) t | [] => [] end -> c_pc c + zlen (pairs data) <= zlen lc ->
  execute_op b c = spush (be data) c (fun c => ok (set_pc (c_pc c + (zlen (pairs data) - 1)) c)).
Proof.
  intros hb hd hl hq hs hin.
  assert (hargs : map snd (slice lc (c_pc c) (zlen (pairs data))) = pairs data).
  { rewrite hs. destruct (pairs data) as [|a t]; [reflexivity|]. cbn [map snd]. f_equal. rewrite map_map. cbn [snd]. apply map_id. }
  assert (hat : forall n k, n = zlen (pairs data) -> args_at lc n c k = k (pairs data)).
  { intros n k ->. unfold args_at. destruct (Z.leb_spec 0 (c_pc c)); [|lia]. destruct (Z.leb_spec (c_pc c + zlen (pairs data)) (zlen lc)); [|lia]. cbn [andb]. rewrite hargs. reflexivity. }
  assert (harg : forall a t (k : Z -> res (oc W)), pairs data = a :: t -> arg_at lc (c_pc c) k = k a).
  { intros a t k e. rewrite e in hs. destruct (slice_znth _ _ _ _ _ hq hs) as [e2 _]. unfold arg_at. rewrite e2. reflexivity. }
  assert (hc : b = 0x60 \/ b = 0x61 \/ b = 0x62 \/ b = 0x63 \/ b = 0x7F \/ 0x64 <= b <= 0x7E) by lia.
  assert (hln : length data = Z.to_nat (b - 0x5F)) by (unfold zlen in hl; lia).
  destruct hc as [-> | [-> | [-> | [-> | [-> | hc]]]]].
  - change (execute_op 0x60 c) with (opPush1 lc c). change (Z.to_nat (0x60 - 0x5F)) with 1%nat in hln. explode data hln. unfold opPush1. erewrite harg by reflexivity. unfold pushValue, spush. cbn [pairs].
    change (zlen [pack z 0] - 1) with 0. rewrite Z.shiftr_div_pow2 by lia. change (2 ^ 8) with 256. rewrite (proj1 (unpair z 0 hb0 ltac:(unfold is_byte; lia))), be_one.
    destruct (_ <? _); [|reflexivity]. unfold ok. rewrite set_pc_same by reflexivity. reflexivity.
  - change (execute_op 0x61 c) with (opPush2 lc c). change (Z.to_nat (0x61 - 0x5F)) with 2%nat in hln. explode data hln. unfold opPush2. erewrite harg by reflexivity. unfold pushValue, spush. cbn [pairs].
    change (zlen [pack z z0] - 1) with 0. replace (be [z; z0]) with (pack z z0) by (unfold be, pack; cbn [fold_left]; lia).
    destruct (_ <? _); [|reflexivity]. unfold ok. rewrite set_pc_same by reflexivity. reflexivity.
  - change (execute_op 0x62 c) with (opPush3 lc c). change (Z.to_nat (0x62 - 0x5F)) with 3%nat in hln. explode data hln. unfold opPush3. rewrite hat by reflexivity. cbn [pairs nth].
    rewrite (Z.shiftr_div_pow2 _ 8) by lia. change (2 ^ 8) with 256. rewrite (proj1 (unpair z1 0 hb2 ltac:(unfold is_byte; lia))). rewrite lor_low by (unfold is_byte in *; lia).
    replace (be [z; z0; z1]) with (pack z z0 * 2 ^ 8 + z1) by (unfold be, pack; cbn [fold_left]; lia). reflexivity.
  - change (execute_op 0x63 c) with (opPush4 lc c). change (Z.to_nat (0x63 - 0x5F)) with 4%nat in hln. explode data hln. unfold opPush4. rewrite hat by reflexivity. cbn [pairs nth].
    rewrite lor_low by (pose proof (pack_range z1 z2); auto; lia).
    replace (be [z; z0; z1; z2]) with (pack z z0 * 2 ^ 16 + pack z1 z2) by (unfold be, pack; cbn [fold_left]; lia). reflexivity.
  - change (execute_op 0x7F c) with (opPush32 lc c). change (Z.to_nat (0x7F - 0x5F)) with 32%nat in hln. unfold opPush32.
    assert (hz : zlen (pairs data) = 16) by (rewrite pairs_zlen; unfold zlen; rewrite hln; reflexivity). rewrite hat by (symmetry; exact hz). cbv zeta. rewrite hz. change (16 - 1) with 15.
    match goal with |- spush ?a _ _ = spush ?b _ _ => replace a with b; [reflexivity|] end. clear - hd hln. explode data hln.
    cbn [pairs]. rewrite !limb4_eq; cbn [nth Nat.add]; try (apply pack_range; assumption); try (apply (pack_range _ _ ltac:(eassumption) ltac:(eassumption))).
    unfold pack, be. cbn [fold_left]. ring.
  - rewrite push_table by (unfold is_byte; lia). unfold opPush. rewrite hat by (rewrite pairs_zlen, hl; reflexivity). cbv zeta.
    rewrite <- hln, pairs_back by exact hd. rewrite setBytes_be. rewrite pairs_zlen, hl. reflexivity.
Qed.
End Push.

Section Step.
Context {W : Type}.
Variable rc : run_context W.
Variable tx : tx_context.
Variable Call : W -> go_kind -> call_params -> option call_result * W.
Variable keccak : list Z -> Z.
Variable p : parameters.
Variable super : bool.
Variable lc : lcode.
Variable rv : revision.
Hypothesis Hrev : toEvmcRevision (p_revision p) = Some rv.
Hypothesis Hhost : host_ok (go_host rc tx).
Hypothesis Htx : tx_ok tx.
Hypothesis Hmsg : msg_ok (message_of p).
Hypothesis Hkeccak : forall d, is_word (keccak d).
Hypothesis Hcode : Forall is_byte (p_code p).
Hypothesis Hsize : zlen (p_code p) <= 65536.
Hypothesis Hloc : located super (p_code p) lc 0 0.
Hypothesis Hsst : forall w a k v w1 st w2, rc_access_storage rc w a k = (COLD, w1) -> rc_set_storage rc w1 a k v = (st, w2) ->
  st <> S_DELETED_RESTORED /\ st <> S_MODIFIED_RESTORED.
Hypothesis Hcodes : forall w a, zlen (rc_code rc w a) < 2 ^ 63.
Hypothesis Hacc : forall w a st w1, rc_access_account rc w a = (st, w1) -> forall b, is_empty rc w1 b = is_empty rc w b /\ rc_balance rc w1 b = rc_balance rc w b.
Hypothesis Hcalls : calls_ok (callF Call) (p_depth p).
Hypothesis Hdepth : p_depth p <= 1024.

Notation H := (go_host rc tx).
Notation msg := (message_of p).
Notation code := (p_code p).
Notation frame := (frame W).
Notation ctx := (ctx W).
Notation oc := (oc W).
Notation exec := (SpecEvm.exec H (callF Call) keccak msg rv code (is_dest code)).
Notation step := (SpecEvm.step H (callF Call) keccak msg rv code (is_dest code)).
Notation execute_op := (execute_op rc tx Call keccak p lc).
Notation lstep := (lstep rc tx Call keccak p lc).
Notation loc := (located super code lc).

(** ** Positions *)
Definition on_dest (i q : Z) : Prop := q = i /\ i < zlen code /\ code_at code i = 0x5B /\ znth lc i = Some (0x5B, 0) /\ loc (i + 1) (i + 1).
Definition at_pos (i q : Z) : Prop := loc i q \/ on_dest i q.
Definition ready (i q : Z) : Prop := on_dest i q \/ loc i q /\ (i < zlen code -> code_at code i <> 0x5B).
Definition nextpos (i q : Z) : Prop := at_pos i (i32 (q + 1)).

Lemma dest_pos d : jumpdest code d -> on_dest d d.
Proof.
  intros h. destruct h as (h1 & h2 & h3). destruct (dest_at super code lc Hsize d Hloc (conj h1 (conj h2 h3))) as [q hq].
  destruct (located_jumpdest super code lc d q hq h2 ltac:(lia) h3) as (_ & k2 & k3 & k4 & _).
  split; [reflexivity|]. split; [exact h2|]. split; [exact h3|]. split; [|exact k4]. apply (slice_znth lc d 1 _ [] (lo_i _ _ _ _ _ hq) k2).
Qed.
Lemma jump_ok d : 0 <= d -> (exists a, znth lc d = Some (0x5B, a)) <-> jumpdest code d.
Proof.
  intros hd. split.
  - intros [a h]. apply (proj1 (dest_iff super code lc Hsize d a Hloc hd)). apply slice_one; assumption.
  - intros h. exists 0. apply (dest_pos d h).
Qed.

(** ** Control *)
Definition incr (r : res oc) : res oc := match r with Ok (Cont c) => Ok (Cont (set_pc (i32 (c_pc c + 1)) c)) | r => r end.
Lemma incr_ok o r : out_ok nextpos o r -> out_ok at_pos o (incr r).
Proof.
  destruct o as [f'|h out f'|e f']; cbn [out_ok].
  - intros (c' & -> & hR & hP). cbn [incr]. exists (set_pc (i32 (c_pc c' + 1)) c'). split; [reflexivity|]. split; [|exact hP]. destruct hR. split; assumption.
  - intros (s & c' & -> & h1). cbn [incr]. eauto.
  - intros (c' & ->). cbn [incr]. eauto.
Qed.
Lemma useGas_incr a (c : ctx) (k : ctx -> res oc) :
  useGas a c (fun c0 => match k c0 with Ok (Cont c1) => Ok (Cont (set_pc (i32 (c_pc c1 + 1)) c1)) | r => r end) = incr (useGas a c k).
Proof. unfold useGas. destruct (_ || _); [reflexivity|]. destruct (k _) as [[]| |]; reflexivity. Qed.

Lemma useGas_err a (c : ctx) k : (forall c, exists c', k c = Ok (Err c')) -> exists c', useGas a c k = Ok (Err c').
Proof. intros h. unfold useGas, err. destruct (_ || _); eauto. Qed.

Lemma step_via f c b a : b = code_at code (f_pc f) -> znth lc (c_pc c) = Some (b, a) -> c_pc c < zlen lc -> R f c -> fine f -> zlen (f_stack f) <= 1024 ->
  (forall ins, instruction b = Some ins -> rev_ge rv (in_since ins) = true -> in_stateful ins && p_static p = false ->
     in_args ins <= zlen (f_stack f) -> zlen (f_stack f) - in_args ins + in_results ins <= 1024 ->
     out_ok nextpos (charge (in_fee ins) f (exec b)) (useGas (staticGasPrice (p_revision p) b) c (execute_op b))) ->
  out_ok at_pos (step f) (lstep c).
Proof.
  intros hb hz hin hR hF hst hk. assert (hbyte : is_byte b) by (rewrite hb; apply data_at_byte; exact Hcode).
  unfold SpecEvm.step. rewrite <- hb. unfold Lfvm.lstep. destruct (Z.leb_spec (zlen lc) (c_pc c)); [lia|]. rewrite hz. rewrite (r_stack _ _ hR).
  rewrite useGas_incr. pose proof (zlen_nonneg (f_stack f)) as hnn.
  assert (allerr : forall (o : outcome W), (exists e f', o = Fail e f') -> (forall c0, exists c', execute_op b c0 = Ok (Err c')) ->
     out_ok at_pos o (if negb (checkStackLimits (zlen (f_stack f)) b) then err c else incr (useGas (staticGasPrice (p_revision p) b) c (execute_op b)))).
  { intros o (e & f' & ->) he. destruct (negb _); [eexists; reflexivity|]. destruct (useGas_err (staticGasPrice (p_revision p) b) c (execute_op b) he) as [c' ->]. eexists. reflexivity. }
  destruct (instruction b) as [ins|] eqn:ei.
  2:{ apply allerr; [destruct (f_gas f <? 0); eauto|]. intros c0. exists c0. exact (unknown_err rc tx Call keccak p lc b c0 hbyte ei). }
  destruct (rev_ge rv (in_since ins)) eqn:es; cbn [negb].
  2:{ apply allerr; [eauto|]. intros c0. exists c0. pose proof (since_ok rc tx Call keccak p lc rv Hrev b c0 hbyte) as h. unfold since_err in h. rewrite ei in h. exact (h es). }
  rewrite static_flag. destruct (in_stateful ins && p_static p) eqn:et.
  { apply allerr; [eauto|]. intros c0. exists c0. pose proof (static_ok rc tx Call keccak p lc b c0 hbyte) as h. unfold static_err in h. rewrite ei in h. exact (h et). }
  rewrite (limits_ok b ins (zlen (f_stack f)) hbyte ei ltac:(lia)).
  destruct (Z.ltb_spec (zlen (f_stack f)) (in_args ins)); [cbn; eexists; reflexivity|]. destruct (Z.ltb_spec 1024 (zlen (f_stack f) - in_args ins + in_results ins)); [cbn; eexists; reflexivity|].
  cbn [negb andb]. apply incr_ok. apply hk; auto; lia.
Qed.
(** paying first *)
Lemma paid_sim (P : Z -> Z -> Prop) fee (f : frame) (c : ctx) (ex : frame -> outcome W) (op : ctx -> res oc) : 0 <= fee -> R f c -> fine f ->
  (forall g, R (with_gas g f) (set_gas g c) -> fine (with_gas g f) -> out_ok P (ex (with_gas g f)) (op (set_gas g c))) ->
  out_ok P (charge fee f ex) (useGas fee c op).
Proof.
  intros hf hR hF h. pose proof (r_gas _ _ hR) as hg. destruct hF as [g1 g2 g3]. unfold charge, useGas. rewrite hg.
  destruct (Z.ltb_spec (f_gas f) 0); [lia|]. destruct (Z.ltb_spec fee 0); [lia|]. cbn [orb]. destruct (Z.ltb_spec (f_gas f) fee).
  - eexists. reflexivity.
  - apply h; [apply R_gas; exact hR|]. apply fine_gas; [split; assumption|lia].
Qed.

Lemma esim_step b ins f c : is_byte b -> instruction b = Some ins -> rev_ge rv (in_since ins) = true -> in_stateful ins && p_static p = false -> special b = false ->
  R f c -> fine f -> in_args ins <= zlen (f_stack f) -> zlen (f_stack f) - in_args ins + in_results ins <= 1024 -> nextpos (f_pc f + 1) (c_pc c) ->
  out_ok nextpos (charge (in_fee ins) f (exec b)) (useGas (staticGasPrice (p_revision p) b) c (execute_op b)).
Proof.
  intros hb ei es et esp hR hF ha hr hP. rewrite (price_ok p rv Hrev b ins hb ei).
  pose proof (esim_all rc tx Call keccak p lc rv Hrev Hhost Htx Hmsg Hkeccak Hcode ltac:(lia) Hsst Hcodes Hacc Hcalls Hdepth b hb) as h. unfold esim in h. rewrite ei in h. specialize (h es et esp).
  assert (hfee : 0 <= in_fee ins) by exact (fee_nn b ins hb ei).
  destruct (Z.eqb_spec (surcharge b) 0) as [e0|e0].
  - rewrite e0. replace (in_fee ins + price_of rv 0) with (in_fee ins) by (unfold price_of; destruct (rev_ge rv Berlin); lia).
    apply paid_sim; try assumption. intros g hR1 hF1. apply h; assumption.
  - assert (ef : in_fee ins = 0).
    { assert (t : match instruction b with Some i => (surcharge b =? 0) || (in_fee i =? 0) | None => true end = true) by (clear - hb; revert b hb; apply byte_check; vm_compute; reflexivity).
      rewrite ei in t. apply orb_prop in t. destruct t as [t|t]; [apply Z.eqb_eq in t; contradiction|apply Z.eqb_eq; exact t]. }
    rewrite ef, Z.add_0_l. pose proof (h nextpos f c hR hF ha hr hP) as h1. unfold charge. destruct hF as [g1 g2 g3]. destruct (Z.ltb_spec (f_gas f) 0); [lia|].
    replace (with_gas (f_gas f - 0) f) with f by (destruct f; unfold with_gas; cbn; rewrite Z.sub_0_r; reflexivity). exact h1.
Qed.

Lemma jump_sim (f : frame) (c : ctx) d s : R f c -> is_word d -> Forall is_word s -> f_pc f < 2 ^ 31 ->
  out_ok nextpos (if is_dest code d then Next (with_pc d (with_stack s f)) else Fail BadJump f) (jumpTo lc d (set_stack s c)).
Proof.
  intros hR hd hs _. unfold is_word in hd.
  assert (bad : jumpdest code d -> 0 <= d < 65536) by (intros (h1 & h2 & _); lia).
  unfold jumpTo. destruct (is_dest code d) eqn:ed.
  - apply is_dest_spec in ed. specialize (bad ed). unfold isUint64. destruct (Z.ltb_spec d (2 ^ 64)); [|lia]. rewrite u64_small by lia. cbn [negb orb]. destruct (Z.ltb_spec (2 ^ 31 - 1) d); [lia|].
    unfold checkJumpDest. cbn [c_pc set_pc]. rewrite (i32_id d) by lia. rewrite (i32_id (d - 1)) by lia. rewrite i32_id by lia. replace (d - 1 + 1) with d by lia.
    pose proof (dest_pos d ed) as hod. pose proof hod as (_ & _ & _ & hz & hl). pose proof (lo_in _ _ _ _ _ hl). destruct (Z.leb_spec (zlen lc) d); [lia|]. rewrite hz. cbn [Z.eqb Pos.eqb].
    eexists. split; [reflexivity|]. split; [apply R_pc; apply R_stack; assumption|]. unfold nextpos. cbn [f_pc with_pc with_stack c_pc set_pc set_stack]. rewrite i32_id by lia. replace (d - 1 + 1) with d by lia. right. exact hod.
  - assert (hn : ~ jumpdest code d) by (intros h; apply is_dest_spec in h; congruence).
    unfold isUint64. destruct (Z.ltb_spec d (2 ^ 64)); cbn [negb orb]; [|eexists; reflexivity]. rewrite u64_small by lia. destruct (Z.ltb_spec (2 ^ 31 - 1) d); [eexists; reflexivity|].
    unfold checkJumpDest. cbn [c_pc set_pc]. rewrite (i32_id d) by lia. rewrite (i32_id (d - 1)) by lia. rewrite i32_id by lia. replace (d - 1 + 1) with d by lia.
    destruct (Z.leb_spec (zlen lc) d); [eexists; reflexivity|]. destruct (znth lc d) as [[op a]|] eqn:ez.
    + destruct (Z.eqb_spec op 0x5B) as [->|]; [|eexists; reflexivity]. exfalso. apply hn. apply (jump_ok d ltac:(lia)). eauto.
    + exfalso. rewrite znth_nth in ez by lia. apply nth_error_None in ez. unfold zlen in *. lia.
Qed.

Theorem step_sim f c : R f c -> fine f -> zlen (f_stack f) <= 1024 -> ready (f_pc f) (c_pc c) -> (f_pc f < zlen code -> grouped super code (f_pc f) = None) -> out_ok at_pos (step f) (lstep c).
Proof.
  intros hR hF hst hrd hal. destruct hrd as [hd|[hl hnd]].
  - (* JUMPDEST *)
    destruct hd as (hq & hi & hb & hz & hl). pose proof (lo_in _ _ _ _ _ hl). pose proof (lo_q _ _ _ _ _ hl). rewrite <- hq in hz.
    apply (step_via f c 0x5B 0); try assumption; try (symmetry; exact hb); [lia|].
    intros ins ei es et ha hr. apply esim_step; try assumption; [unfold is_byte; lia|reflexivity|]. unfold nextpos. rewrite hq. rewrite i32_id by lia. left. exact hl.
  - pose proof (lo_i _ _ _ _ _ hl) as hi. pose proof (lo_q _ _ _ _ _ hl) as hq. pose proof (lo_le _ _ _ _ _ hl) as hle. destruct (Z_lt_ge_dec (f_pc f) (zlen code)) as [hin|hout].
    2:{ (* behind the end *)
      pose proof (located_end super code lc _ _ hl ltac:(lia)) as e. unfold Lfvm.lstep. destruct (Z.leb_spec (zlen lc) (c_pc c)); [|lia].
      unfold SpecEvm.step. assert (e0 : code_at code (f_pc f) = 0) by (unfold code_at; apply data_at_out; lia). rewrite e0. cbn [instruction in_since in_stateful andb in_args in_results in_fee].
      replace (rev_ge rv Istanbul) with true by (destruct rv; reflexivity). cbn [negb]. pose proof (zlen_nonneg (f_stack f)). destruct (Z.ltb_spec (zlen (f_stack f)) 0); [lia|]. destruct (Z.ltb_spec 1024 (zlen (f_stack f) - 0 + 0)); [lia|].
      unfold charge. destruct hF as [g1 g2 g3]. destruct (Z.ltb_spec (f_gas f) 0); [lia|]. exists StStopped, c. split; [reflexivity|]. split; [split; [left|]; reflexivity|].
      cbn [f_gas with_pc with_gas f_refund f_world]. rewrite Z.sub_0_r. destruct hR. auto. }
    specialize (hnd hin). specialize (hal hin). destruct (located_plain super code lc _ _ hl hin ltac:(lia) hnd hal) as (p1 & p2 & p3).
    set (b := code_at code (f_pc f)) in *. assert (hb : is_byte b) by (apply data_at_byte; exact Hcode). pose proof (push_len_nonneg code (f_pc f)) as hpl. fold b in hpl.
    pose proof (entries_zlen code (f_pc f)) as [hez _]. fold b in hez. pose proof (lo_q _ _ _ _ _ p3). pose proof (lo_le _ _ _ _ _ p3). pose proof (lo_in _ _ _ _ _ p3).
    destruct (special b) eqn:esp.
    2:{ (* ordinary instructions *)
      unfold special in esp. apply orb_false_elim in esp. destruct esp as [esp epush]. pose proof esp as esp0. apply orb_false_elim in esp0. destruct esp0 as [_ epc].
      assert (ee : entries code (f_pc f) b = [(b, 0)]) by (unfold entries; rewrite epc, epush; reflexivity).
      assert (el : push_len b = 0) by (unfold push_len; rewrite epush; reflexivity). rewrite ee in *. rewrite el in *. change (zlen [(b, 0)]) with 1 in *.
      destruct (slice_znth _ _ _ _ _ hq p1) as [hz hlt].
      apply (step_via f c b 0); try assumption; [reflexivity|]. intros ins ei es et ha hr.
      apply esim_step; try assumption; [unfold special; rewrite esp, epush; reflexivity|]. unfold nextpos. rewrite i32_id by lia. left. rewrite Z.add_0_r in p3. exact p3. }
    unfold special in esp.
    destruct (Z.eqb_spec b 0x56) as [e56|_]; [|destruct (Z.eqb_spec b 0x57) as [e57|_]; [|destruct (Z.eqb_spec b 0x58) as [e58|_]]]; cbn [orb] in esp.
    + (* JUMP *)
      rewrite e56 in *. change (entries code (f_pc f) 0x56) with [(0x56, 0)] in *. change (zlen [(0x56, 0)]) with 1 in *. destruct (slice_znth _ _ _ _ _ hq p1) as [hz hlt].
      apply (step_via f c 0x56 0); try assumption; [symmetry; exact e56|]. intros ins ei es et ha hr. rewrite (price_ok p rv Hrev 0x56 ins hb ei). injection ei as <-. cbn [in_fee in_args in_results] in *.
      replace (G_mid + price_of rv (surcharge 86)) with G_mid by (unfold price_of, G_mid; destruct (rev_ge rv Berlin); reflexivity).
      apply paid_sim; [unfold G_mid; lia|assumption|assumption|]. intros g hR1 hF1.
      change (exec 0x56) with (i_jump (W:=W) (is_dest code)). change (execute_op 0x56) with (opJump (W:=W) lc). unfold i_jump, opJump, spop.
      rewrite (r_stack _ _ hR1). pose proof (r_words _ _ hR1) as hws. cbn [f_stack with_gas] in *. destruct (f_stack f) as [|d s]; [change (zlen (@nil Z)) with 0 in ha; lia|].
      inversion hws as [|? ? w1 w2]; subst. apply jump_sim; try assumption. cbn [f_pc with_gas]. lia.
    + (* JUMPI *)
      rewrite e57 in *. change (entries code (f_pc f) 0x57) with [(0x57, 0)] in *. change (zlen [(0x57, 0)]) with 1 in *. destruct (slice_znth _ _ _ _ _ hq p1) as [hz hlt].
      apply (step_via f c 0x57 0); try assumption; [symmetry; exact e57|]. intros ins ei es et ha hr. rewrite (price_ok p rv Hrev 0x57 ins hb ei). injection ei as <-. cbn [in_fee in_args in_results] in *.
      replace (G_high + price_of rv (surcharge 87)) with G_high by (unfold price_of, G_high; destruct (rev_ge rv Berlin); reflexivity).
      apply paid_sim; [unfold G_high; lia|assumption|assumption|]. intros g hR1 hF1.
      change (exec 0x57) with (i_jumpi (W:=W) (is_dest code)). change (execute_op 0x57) with (opJumpi (W:=W) lc). unfold i_jumpi, opJumpi, spop.
      rewrite (r_stack _ _ hR1). pose proof (r_words _ _ hR1) as hws. cbn [f_stack with_gas c_stack set_stack] in *. destruct (f_stack f) as [|d [|x s]]; [change (zlen (@nil Z)) with 0 in ha; lia|change (zlen [d]) with 1 in ha; lia|].
      inversion hws as [|? ? w1 w2]; subst. inversion w2 as [|? ? w3 w4]; subst. cbn [c_stack set_stack]. destruct (Z.eqb_spec x 0).
      * eexists. split; [reflexivity|]. split; [apply (R_stack _ _ s) in hR1; [|assumption]; destruct hR1; split; assumption|].
        unfold nextpos. cbn [f_pc with_pc with_stack with_gas c_pc set_stack set_gas]. rewrite i32_id by lia. left. change (push_len 0x57) with 0 in p3. rewrite Z.add_0_r in p3. exact p3.
      * pose proof (jump_sim (with_gas g f) (set_gas g c) d s hR1 w1 w4 ltac:(cbn [f_pc with_gas]; lia)) as hj. exact hj.
    + (* PC *)
      rewrite e58 in *. change (entries code (f_pc f) 0x58) with [(0x58, f_pc f)] in *. change (zlen [(0x58, f_pc f)]) with 1 in *. destruct (slice_znth _ _ _ _ _ hq p1) as [hz hlt].
      apply (step_via f c 0x58 (f_pc f)); try assumption; [symmetry; exact e58|]. intros ins ei es et ha hr. rewrite (price_ok p rv Hrev 0x58 ins hb ei). injection ei as <-. cbn [in_fee in_args in_results] in *.
      replace (G_base + price_of rv (surcharge 88)) with G_base by (unfold price_of, G_base; destruct (rev_ge rv Berlin); reflexivity).
      apply paid_sim; [unfold G_base; lia|assumption|assumption|]. intros g hR1 hF1.
      change (exec 0x58) with (fun f => push (W:=W) (f_pc f) f). change (execute_op 0x58) with (opPc (W:=W) lc). unfold opPc, arg_at. cbn [c_pc set_gas f_pc with_gas]. rewrite hz.
      apply (sim_push (f_pc f) (f_pc f) eq_refl ltac:(unfold is_word; lia)); try assumption. unfold nextpos. cbn [c_pc set_gas f_pc with_gas]. rewrite i32_id by lia. left. change (push_len 0x58) with 0 in p3. rewrite Z.add_0_r in p3. exact p3.
    + (* PUSH *)
      pose proof esp as epush. apply andb_prop in esp. destruct esp as [b1 b2]. apply Z.leb_le in b1, b2.
      assert (el : push_len b = b - 95) by (unfold push_len; rewrite epush; reflexivity).
      assert (ee : entries code (f_pc f) b = match pairs (data_bytes code (f_pc f + 1) (b - 95)) with a :: t => (b, a) :: map (pair L_DATA) t | [] => [] end).
      { unfold entries. destruct (Z.eqb_spec b 0x58); [lia|]. rewrite epush, el. reflexivity. }
      set (data := data_bytes code (f_pc f + 1) (b - 95)) in *.
      assert (hd : Forall is_byte data) by (apply data_bytes_byte; exact Hcode). assert (hdl : zlen data = b - 0x5F) by (unfold data; rewrite data_bytes_zlen; lia).
      assert (ez : zlen (entries code (f_pc f) b) = zlen (pairs data)).
      { rewrite ee. destruct (pairs data) as [|a t]; [reflexivity|]. rewrite !zlen_cons. f_equal. unfold zlen. rewrite map_length. reflexivity. }
      rewrite ez in *. rewrite ee in p1. destruct (pairs data) as [|a t] eqn:ep; [change (zlen (@nil Z)) with 0 in hez; lia|]. destruct (slice_znth _ _ _ _ _ hq p1) as [hz hlt].
      apply (step_via f c b a); try assumption; [reflexivity|]. intros ins ei es et ha hr. rewrite (price_ok p rv Hrev b ins hb ei).
      assert (eins : ins = mkInstr 0 1 G_verylow Istanbul false).
      { assert (t1 : instruction b = Some (mkInstr 0 1 G_verylow Istanbul false)); [|congruence]. clear - hb b1 b2. revert hb b1 b2. generalize b. clear b. intros b hb. revert b hb.
        apply (byte_cases (fun b => 96 <= b -> b <= 127 -> instruction b = Some (mkInstr 0 1 G_verylow Istanbul false))). cbn [seq map Z.of_nat Pos.of_succ_nat Pos.succ].
        repeat (apply Forall_cons; [let h1 := fresh in let h2 := fresh in intros h1 h2; first [reflexivity|exfalso; lia]|]). apply Forall_nil. }
      subst ins. cbn [in_fee in_args in_results] in *.
      assert (es0 : surcharge b = 0) by (unfold surcharge; repeat (match goal with |- context [b =? ?k] => destruct (Z.eqb_spec b k); [lia|] | |- context [existsb] => cbn [existsb] end); reflexivity).
      rewrite es0. replace (G_verylow + price_of rv 0) with G_verylow by (unfold price_of, G_verylow; destruct (rev_ge rv Berlin); reflexivity).
      apply paid_sim; [unfold G_verylow; lia|assumption|assumption|]. intros g hR1 hF1.
      assert (hexec : exec b (with_gas g f) = i_push code (b - 95) (with_gas g f)).
      { clear - hb b1 b2. revert hb b1 b2. generalize b. clear b. intros b hb. revert b hb.
        apply (byte_cases (fun b => 96 <= b -> b <= 127 -> exec b (with_gas g f) = i_push code (b - 95) (with_gas g f))). cbn [seq map Z.of_nat Pos.of_succ_nat Pos.succ].
        repeat (apply Forall_cons; [let h1 := fresh in let h2 := fresh in intros h1 h2; first [reflexivity|exfalso; lia]|]). apply Forall_nil. }
      rewrite hexec. rewrite (push_op rc tx Call keccak p lc b data (set_gas g c) ltac:(lia) hd hdl hq); [|cbn [c_pc set_gas]; rewrite ep; exact p1|cbn [c_pc set_gas]; rewrite ep; exact p2].
      unfold i_push. cbn [f_pc f_stack with_gas]. fold data. unfold spush. rewrite (r_stack _ _ hR1). cbn [f_stack with_gas]. destruct (Z.ltb_spec (zlen (f_stack f)) 1024); [|lia].
      eexists. split; [reflexivity|]. split.
      * apply R_pc. apply R_stack; [exact hR1|]. constructor; [apply be_word; [exact hd|lia]|]. exact (r_words _ _ hR).
      * unfold nextpos. cbn [f_pc with_pc c_pc set_pc set_stack set_gas]. rewrite ep. rewrite i32_id by lia. left. rewrite el in p3. replace (c_pc c + (zlen (a :: t) - 1) + 1) with (c_pc c + zlen (a :: t)) by lia. exact p3.
Qed.

(** JUMP_TO and padding do not count *)
Lemma settle f c : R f c -> fine f -> zlen (f_stack f) <= 1024 -> at_pos (f_pc f) (c_pc c) ->
  ready (f_pc f) (c_pc c) \/ exists c', lstep c = Ok (Cont c') /\ R f c' /\ ready (f_pc f) (c_pc c').
Proof.
  intros hR hF hst [hl|hd]; [|left; left; exact hd].
  destruct (Z_lt_ge_dec (f_pc f) (zlen code)) as [hin|hout]; [|left; right; split; [exact hl|lia]].
  destruct (Z.eq_dec (code_at code (f_pc f)) 0x5B) as [hb|hb]; [|left; right; split; auto].
  destruct (located_jumpdest super code lc _ _ hl hin ltac:(lia) hb) as (k1 & k2 & k3 & k4 & _).
  pose proof (lo_i _ _ _ _ _ hl) as hi. pose proof (lo_q _ _ _ _ _ hl) as hq. pose proof (lo_le _ _ _ _ _ hl) as hle.
  assert (hod : on_dest (f_pc f) (f_pc f)). { split; [reflexivity|]. split; [exact hin|]. split; [exact hb|]. split; [|exact k4]. apply (slice_znth _ _ _ _ _ hi k2). }
  destruct (Z.eq_dec (c_pc c) (f_pc f)) as [e|ne]; [left; left; rewrite e; exact hod|]. right.
  destruct (slice_znth _ _ _ _ _ hq (k1 ltac:(lia))) as [hz hlt]. unfold Lfvm.lstep. destruct (Z.leb_spec (zlen lc) (c_pc c)); [lia|]. rewrite hz.
  assert (e1 : checkStackLimits (zlen (c_stack c)) L_JUMP_TO = true).
  { unfold checkStackLimits. change (computeStackUsage (L_JUMP_TO mod 512)) with (0, 0, 0). rewrite (r_stack _ _ hR). pose proof (zlen_nonneg (f_stack f)).
    destruct (Z.ltb_spec (zlen (f_stack f)) (- 0)); [lia|]. destruct (Z.ltb_spec (1024 - 0) (zlen (f_stack f))); [lia|]. reflexivity. }
  rewrite e1. cbn [negb]. replace (staticGasPrice (p_revision p) L_JUMP_TO) with 0 by (unfold staticGasPrice; destruct (1 <=? p_revision p); reflexivity).
  unfold useGas. rewrite (r_gas _ _ hR). destruct hF as [g1 g2 g3]. destruct (Z.ltb_spec (f_gas f) 0); [lia|]. cbn [orb Z.ltb Z.compare].
  change (execute_op L_JUMP_TO) with (opJumpTo (W:=W) lc). unfold opJumpTo, arg_at. cbn [c_pc set_gas]. rewrite hz. unfold ok. cbn [c_pc set_pc].
  eexists. split; [reflexivity|]. rewrite (i32_id (f_pc f - 1)) by lia. replace (f_pc f - 1 + 1) with (f_pc f) by lia. rewrite i32_id by lia. cbn [c_pc set_pc].
  split; [|left; exact hod]. rewrite Z.sub_0_r. destruct hR. split; cbn; try assumption. reflexivity.
Qed.
End Step.
