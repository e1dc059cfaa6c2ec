(** Rules of the conformance tests: memory, gas, and the frame of all instructions. *)
From Verif Require Import Base Host Uint256 SpecEvm SpecVm ArithFacts MemFacts JumpFacts GoAdapter GoStorage LfvmCode Lfvm LfvmSim LfvmOps SpecLfvm Ct SpecCt PropFacts2 CtRules SpecRules CtRuleFacts.
From Coq Require Import Lia ZArith List Bool.
Import ListNotations.
Open Scope Z_scope.

(** ** Memory *)
Lemma mem_small m g a (gas : Z) : mem_rel m g a -> 0 <= gas -> gas + Gmem a < 2 ^ 54 -> 0 <= a < 2 ^ 37.
Proof. intros h hg hp. pose proof (mr_nonneg _ _ _ h). split; [lia|]. apply size_small; lia. Qed.
Lemma SizeInWords_words n : 0 <= n < 2 ^ 63 -> SizeInWords n = words n.
Proof. intros h. unfold SizeInWords. destruct (Z.ltb_spec (2 ^ 64 - 1 - 31) n); [lia|reflexivity]. Qed.
Lemma word_costs k n : 0 <= k <= 6 -> 0 <= n < 2 ^ 64 -> s64 (u64 (k * SizeInWords n)) = k * words n.
Proof. intros hk hn. rewrite <- (word_cost k n hk hn). rewrite (u64_small n hn). reflexivity. Qed.
Lemma grow_ok m g a off n : mem_rel m g a -> 0 <= a < 2 ^ 37 -> 0 <= n -> (n <> 0 -> 0 <= off /\ off + n < 2 ^ 37) ->
  mem_rel (Grow off n m) g (expand a off n).
Proof.
  intros h ha hn ho. unfold Grow, expand. destruct (Z.eqb_spec n 0) as [->|hz]; [exact h|]. destruct (ho hz) as [h1 h2]. rewrite (u64_small (off + n)) by lia. destruct h as [m1 m2 m3 m4]. rewrite m1.
  pose proof (words_bound (off + n)) as hb. destruct (Z.ltb_spec a (off + n)) as [hlt|hge].
  - rewrite SizeInWords_words by lia. rewrite (u64_small (words (off + n) * 32)) by lia. rewrite u64_small by lia. rewrite Z.max_r by lia. split.
    + rewrite zlen_app, zlen_zeros, m1. lia.
    + rewrite words_mul. reflexivity.
    + apply Forall_app. split; [exact m3|apply zeros_byte].
    + intros i hi. rewrite data_at_app by lia. rewrite m1, data_at_zeros, m4 by lia. destruct (Z.ltb_spec i a); [reflexivity|]. apply data_at_out. lia.
  - rewrite Z.max_l; [split; assumption|]. rewrite m2. apply Z.mul_le_mono_nonneg_l; [lia|]. apply words_le. lia.
Qed.
Lemma expand_small a off n : 0 <= a < 2 ^ 37 -> (n <> 0 -> 0 <= off /\ off + n < 2 ^ 37) -> 0 <= expand a off n <= 2 ^ 37.
Proof.
  intros ha ho. unfold expand. destruct (Z.eqb_spec n 0) as [->|hz]; [lia|]. destruct (ho hz). pose proof (words_bound (off + n)).
  assert (words (off + n) <= 2 ^ 32). { change (2 ^ 32) with (words (2 ^ 37)). apply words_le. lia. } lia.
Qed.
Lemma read_ok b pc gas rf st m last w g a off n : mem_rel m g a -> 0 <= a < 2 ^ 37 -> 0 <= n -> (n <> 0 -> 0 <= off /\ off + n < 2 ^ 37) ->
  Read off n (mk b pc gas rf st m last w) = Ok (read_bytes g off n, mk b pc gas rf st (Grow off n m) last w).
Proof.
  intros h ha hn ho. unfold Read. destruct (Z.eqb_spec n 0) as [->|hz]; [reflexivity|]. destruct (ho hz) as [h1 h2]. pose proof (grow_ok m g a off n h ha hn ho) as hg. rewrite mk_mem.
  pose proof (expand_end a off n hz). rewrite (u64_small (off + n)) by lia. unfold sub. rewrite (mr_size _ _ _ hg).
  assert (e : (0 <=? off) && (off <=? off + n) && (off + n <=? expand a off n) = true) by lia. rewrite e. cbn [rbind]. rewrite mk_set_mem. f_equal. f_equal.
  replace (off + n - off) with n by lia. rewrite slice_read by (rewrite ?(mr_size _ _ _ hg); lia). apply read_bytes_ext; [lia|]. intros i hi. symmetry. apply (mr_at _ _ _ hg). lia.
Qed.
Lemma write_ok b pc gas rf st m last w g a off d : mem_rel m g a -> 0 <= a < 2 ^ 37 -> Forall is_byte d -> (zlen d <> 0 -> 0 <= off /\ off + zlen d < 2 ^ 37) ->
  exists m', Write d off (mk b pc gas rf st m last w) = Ok (mk b pc gas rf st m' last w) /\ mem_rel m' (write_bytes g off d) (expand a off (zlen d)).
Proof.
  intros h ha hd ho. unfold Write. pose proof (zlen_nonneg d) as hn. destruct (Z.eqb_spec (zlen d) 0) as [e0|hz].
  - exists m. split; [reflexivity|]. apply zlen_0_nil in e0. subst d. unfold expand. cbn [zlen length Z.of_nat Z.eqb]. apply (mem_rel_ext m g); [exact h|]. intros i. symmetry. apply write_bytes_nil.
  - destruct (ho hz) as [h1 h2]. pose proof (grow_ok m g a off (zlen d) h ha hn ho) as hg. rewrite mk_mem. pose proof (expand_end a off (zlen d) hz). rewrite (mr_size _ _ _ hg).
    assert (e : (off <=? expand a off (zlen d)) = true) by lia. rewrite e. rewrite mk_set_mem. rewrite firstn_all2 by (unfold zlen in *; lia). eexists. split; [reflexivity|].
    destruct hg as [m1 m2 m3 m4]. split.
    + rewrite splice_zlen; lia.
    + exact m2.
    + unfold splice. apply Forall_app; split; [apply Forall_firstn'; assumption|]. apply Forall_app; split; [exact hd|apply Forall_skipn'; assumption].
    + intros i hi. rewrite splice_at by lia. unfold write_bytes. destruct ((off <=? i) && (i <? off + zlen d)) eqn:ei; [|apply m4; lia]. rewrite data_at_nth by lia. reflexivity.
Qed.
Lemma expansion m g a off n gas : mem_rel m g a -> is_word off -> is_word n -> 0 <= gas -> gas + Gmem a < 2 ^ 54 ->
  exists c o z, ExpansionCosts off n m = (c, o, z) /\ 0 <= z < 2 ^ 64 /\ 0 <= o < 2 ^ 64 /\
    ((c = Gmem (expand a off n) - Gmem a /\ 0 <= c < 2 ^ 56 /\ z = n /\ n < 2 ^ 37 /\ (n <> 0 -> o = off /\ 0 <= off /\ off + n < 2 ^ 37)) \/
     (c = maxInt64 /\ gas < Gmem (expand a off n) - Gmem a)).
Proof.
  intros h ho hn hg hp. unfold is_word in ho, hn. pose proof (mem_small _ _ _ _ h hg hp) as ha. unfold ExpansionCosts, isUint64.
  destruct (Z.ltb_spec n (2 ^ 64)) as [hn2|hn2]; cbn [negb].
  2:{ exists maxInt64, 0, 0. split; [reflexivity|]. split; [lia|]. split; [lia|]. right. split; [reflexivity|]. apply big_fee; lia. }
  assert (zero : forall o, n = 0 -> 0 = Gmem (expand a off n) - Gmem a /\ 0 <= 0 < 2 ^ 56 /\ 0 = n /\ n < 2 ^ 37 /\ (n <> 0 -> o = off /\ 0 <= off /\ off + n < 2 ^ 37)).
  { intros o ->. unfold expand. cbn [Z.eqb]. repeat split; try lia. }
  assert (big : n <> 0 -> 2 ^ 37 - 32 < off + n -> gas < Gmem (expand a off n) - Gmem a).
  { intros hz hb. apply big_access; try lia. pose proof (words_bound (off + n)). lia. }
  destruct (Z.ltb_spec off (2 ^ 64)) as [ho2|ho2]; cbn [negb].
  2:{ destruct (Z.eqb_spec n 0) as [hz|hz]; [exists 0, 0, 0|exists maxInt64, 0, 0]; (split; [reflexivity|]); (split; [lia|]); (split; [lia|]); [left; apply (zero 0 hz)|right; split; [reflexivity|apply big; lia]]. }
  destruct (Z.eqb_spec n 0) as [hz|hz].
  { exists 0, off, n. split; [reflexivity|]. split; [lia|]. split; [lia|]. left. pose proof (zero off hz) as X. intuition lia. }
  destruct ((2 ^ 64 - 1 - n <? off) || (2 ^ 64 - 1 - off <? n)) eqn:eo.
  { exists maxInt64, off, n. split; [reflexivity|]. split; [lia|]. split; [lia|]. right. split; [reflexivity|]. apply big; lia. }
  destruct (Z.leb_spec (off + n) (zlen m)) as [hle|hgt].
  { exists 0, off, n. split; [reflexivity|]. split; [lia|]. split; [lia|]. left. rewrite (mr_size _ _ _ h) in hle.
    assert (e : expand a off n = a). { unfold expand. destruct (Z.eqb_spec n 0); [lia|]. apply Z.max_l. rewrite (mr_words _ _ _ h). apply Z.mul_le_mono_nonneg_l; [lia|]. apply words_le. lia. }
    rewrite e. repeat split; lia. }
  destruct (Z.ltb_spec 0x1FFFFFFFE0 (off + n)) as [hb|hb].
  { exists maxInt64, off, n. split; [reflexivity|]. split; [lia|]. split; [lia|]. right. split; [reflexivity|]. apply big; lia. }
  rewrite (mr_size _ _ _ h) in *. pose proof (words_bound (off + n)) as hw.
  assert (hww : words (off + n) <= 2 ^ 32 - 1). { change (2 ^ 32 - 1) with (words 0x1FFFFFFFE0). apply words_le. lia. }
  assert (cost : forall x, 0 <= x -> words x <= 2 ^ 32 - 1 -> calcMemoryCost x = Gmem x /\ 0 <= Gmem x < 2 ^ 56).
  { intros x hx hwx. assert (ew : x / 32 + (if x mod 32 =? 0 then 0 else 1) = words x).
    { unfold words. destruct (Z.eqb_spec (x mod 32) 0); pose proof (Z.div_mod x 32 ltac:(lia)); pose proof (Z.mod_pos_bound x 32 ltac:(lia));
      [apply Z.div_unique with (r := x mod 32 + 31)|apply Z.div_unique with (r := x mod 32 - 1)]; lia. }
    unfold calcMemoryCost. rewrite ew. pose proof (words_nonneg x hx) as h0. assert (hs : 0 <= words x * words x < 2 ^ 64) by nia. rewrite (u64_small (words x * words x)) by lia.
    assert (hd : 0 <= words x * words x / 512 < 2 ^ 55) by (split; [apply Z.div_pos; lia|apply Z.div_lt_upper_bound; lia]).
    rewrite u64_small by lia. unfold Gmem. split; [rewrite s64_small by lia; lia|lia]. }
  assert (ee : expand a off n = 32 * words (off + n)) by (unfold expand; destruct (Z.eqb_spec n 0); lia).
  destruct (cost (off + n) ltac:(lia) hww) as [c1 c2]. assert (hwa : words a <= 2 ^ 32 - 1) by (etransitivity; [apply words_le|exact hww]; lia).
  destruct (cost a ltac:(lia) hwa) as [c3 c4]. rewrite c1, c3, ee.
  assert (eg : Gmem (32 * words (off + n)) = Gmem (off + n)) by (unfold Gmem; rewrite words_mul; reflexivity). rewrite eg.
  pose proof (Gmem_mono a (off + n) ltac:(lia)) as hm. exists (s64 (Gmem (off + n) - Gmem a)), off, n. split; [reflexivity|]. split; [lia|]. split; [lia|]. left. rewrite s64_small by lia. repeat split; lia.
Qed.
Lemma sum2 a b' : 0 <= a < 2 ^ 63 -> 0 <= b' < 2 ^ 63 -> sumWithOverflow 0 [a; b'] = if a + b' <? 2 ^ 63 then Some (a + b') else None.
Proof.
  intros ha hb. cbn [sumWithOverflow]. rewrite (s64_small (0 + a)) by lia. rewrite Z.add_0_l. assert (e : (a <? 0) = false) by lia. rewrite e.
  destruct (Z.ltb_spec (a + b') (2 ^ 63)).
  - rewrite s64_small by lia. assert (e2 : (a + b' <? a) = false) by lia. rewrite e2. reflexivity.
  - assert (e2 : s64 (a + b') = a + b' - 2 ^ 64). { unfold s64. rewrite Z.mod_small by lia. cbv zeta. destruct (Z.ltb_spec (a + b') (2 ^ 63)); lia. }
    rewrite e2. assert (e3 : (a + b' - 2 ^ 64 <? a) = true) by lia. rewrite e3. reflexivity.
Qed.

(** ** Agreement of an effect with what the EVM does *)
Definition agrees (b : state) (e : res state) (o : outcome ctw) : Prop := exists s', e = Ok s' /\ same_state s' (ct_after b o).
Lemma agrees_failed b s e f : agrees b (failed s) (Fail e f).
Proof. eexists. split; [reflexivity|]. split; [reflexivity|]. intros h. elim h. reflexivity. Qed.
Lemma agrees_fail b s e f : agrees b (FailEffect s) (Fail e f).
Proof. eexists. split; [reflexivity|]. split; [reflexivity|]. intros h. elim h. reflexivity. Qed.
Lemma mem_whole m g a : mem_rel m g a -> read_bytes g 0 a = m.
Proof.
  intros [m1 m2 m3 m4]. pose proof (zlen_nonneg m). apply list_data_ext; [rewrite read_bytes_zlen; lia|]. intros i hi. rewrite read_bytes_zlen in hi. rewrite read_bytes_at by lia. apply m4. lia.
Qed.
Lemma agrees_next b pc gas rf st m last w g a : mem_rel m g a ->
  agrees b (Ok (mk b pc gas rf st m last w)) (Next (mkFrame pc gas st g a last rf w)).
Proof.
  intros h. eexists. split; [reflexivity|]. Transparent mk. unfold same_state, ct_after, ct_update, mk. Opaque mk. cbn [ct_stat ct_revision ct_readonly ct_pc ct_gas ct_refund ct_code ct_mem ct_self ct_caller ct_value ct_calldata ct_last ct_ret ct_world ct_stack f_pc f_gas f_stack f_mem f_active f_ret f_refund f_world].
  split; [reflexivity|]. intros _. repeat (split; [reflexivity|]). split; [left; reflexivity|]. split; [reflexivity|]. split; [symmetry; apply mem_whole; exact h|reflexivity].
Qed.
Lemma agrees_next' b pc gas rf st m last w f : mem_rel m (f_mem f) (f_active f) -> pc = f_pc f -> gas = f_gas f -> rf = f_refund f -> st = f_stack f -> last = f_ret f -> w = f_world f ->
  agrees b (Ok (mk b pc gas rf st m last w)) (Next f).
Proof. destruct f. cbn. intros h -> -> -> -> -> ->. apply agrees_next. exact h. Qed.

(** ** The frame of all instructions *)
Section Frame.
Variable tx : tx_context.
Variable keccak hash : list Z -> Z.
Hypothesis Htx : tx_ok tx.
Notation H := (go_host (ct_rc tx) tx).
Notation call := (answers ct_Call).
Notation msg_of b := (message_of (ToVmParameters hash b)).
Definition Step (b : state) (rv : revision) : outcome ctw := step H call keccak (msg_of b) rv (ct_code b) (is_dest (ct_code b)) (frame_of b).
Definition Exec (b : state) (rv : revision) : Z -> frame ctw -> outcome ctw := exec H call keccak (msg_of b) rv (ct_code b) (is_dest (ct_code b)).
Lemma run_one b rv : run_for H call keccak (msg_of b) rv (ct_code b) (is_dest (ct_code b)) 1 (frame_of b) = Step b rv.
Proof. unfold Step. cbn [run_for]. destruct (step _ _ _ _ _ _ _ _); reflexivity. Qed.

Definition rule_ok (r : rule) : Prop := forall b rv, test_state b -> In (ct_revision b, rv) revisions -> Forall (holds tx b) (r_conditions r) -> agrees b (r_effect r b) (Step b rv).

Lemma static_of (b : state) : static (msg_of b) = ct_readonly b.
Proof. unfold static. cbn. destruct (ct_readonly b); reflexivity. Qed.
Definition passes (b : state) (rv : revision) (i : instr) : Prop :=
  rev_ge rv (in_since i) = true /\ (in_stateful i = true -> ct_readonly b = false).
Definition FrameIs (b : state) : frame ctw := mkFrame (ct_pc b) (ct_gas b) (rev (ct_stack b)) (data_at (ct_mem b)) (zlen (ct_mem b)) (ct_last b) (ct_refund b) (ct_world b).
Lemma frame_is b : test_state b -> frame_of b = FrameIs b.
Proof.
  intros h. unfold frame_of, FrameIs. f_equal. pose proof (tst_mem b h) as hm. pose proof (Z.div_mod (zlen (ct_mem b)) 32 ltac:(lia)) as hd. rewrite hm, Z.add_0_r in hd. rewrite hd, words_mul. reflexivity.
Qed.
Lemma start_rel b : test_state b -> mem_rel (ct_mem b) (data_at (ct_mem b)) (zlen (ct_mem b)).
Proof.
  intros h. pose proof (tst_mem b h) as hm. pose proof (Z.div_mod (zlen (ct_mem b)) 32 ltac:(lia)) as hd. rewrite hm, Z.add_0_r in hd. split; try reflexivity; [rewrite hd, words_mul; reflexivity|].
  apply (ctk_mem b (tst_ok b h)).
Qed.
Lemma step_fails b rv op i : test_state b -> code_at (ct_code b) (ct_pc b) = op -> SpecEvm.instruction op = Some i ->
  rev_ge rv (in_since i) = false \/ in_stateful i && ct_readonly b = true \/ zlen (ct_stack b) < in_args i \/ 1024 < zlen (ct_stack b) - in_args i + in_results i \/ ct_gas b < in_fee i ->
  exists e f, Step b rv = Fail e f.
Proof.
  intros ht hop hi hc. unfold Step. rewrite (frame_is b ht). unfold step. cbn [FrameIs f_pc f_stack f_gas]. rewrite hop, hi, static_of. assert (hl : zlen (rev (ct_stack b)) = zlen (ct_stack b)) by (unfold zlen; rewrite rev_length; reflexivity). rewrite hl.
  destruct (rev_ge rv (in_since i)); cbn [negb]; [|eauto]. destruct (in_stateful i && ct_readonly b); [eauto|]. destruct (Z.ltb_spec (zlen (ct_stack b)) (in_args i)); [eauto|].
  destruct (Z.ltb_spec 1024 (zlen (ct_stack b) - in_args i + in_results i)); [eauto|]. unfold charge. cbn [FrameIs f_gas]. destruct (Z.ltb_spec (ct_gas b) (in_fee i)); [eauto|]. exfalso. intuition (discriminate || lia).
Qed.
Lemma step_exec b rv op i : test_state b -> code_at (ct_code b) (ct_pc b) = op -> SpecEvm.instruction op = Some i -> passes b rv i ->
  in_args i <= zlen (ct_stack b) -> zlen (ct_stack b) - in_args i + in_results i <= 1024 ->
  Step b rv = charge (in_fee i) (FrameIs b) (Exec b rv op).
Proof.
  intros ht hop hi [h1 h2] h3 h4. unfold Step. rewrite (frame_is b ht). unfold step. cbn [FrameIs f_pc f_stack f_gas]. rewrite hop, hi, static_of. assert (hl : zlen (rev (ct_stack b)) = zlen (ct_stack b)) by (unfold zlen; rewrite rev_length; reflexivity). rewrite hl, h1. cbn [negb].
  assert (e1 : in_stateful i && ct_readonly b = false). { destruct (in_stateful i); [rewrite h2 by reflexivity|]; reflexivity. } rewrite e1.
  destruct (Z.ltb_spec (zlen (ct_stack b)) (in_args i)); [lia|]. destruct (Z.ltb_spec 1024 (zlen (ct_stack b) - in_args i + in_results i)); [lia|]. reflexivity.
Qed.

(** rules of an instruction: the effect (or failure for too little gas) has to be shown for states with the right stack *)
Lemma rulesFor_ok i it : SpecEvm.instruction (i_op i) = Some it -> 0 <= i_gas i ->
  i_pops i <= in_args it -> (i_pops i < i_pushes i -> in_results it - in_args it = i_pushes i - i_pops i /\ i_pushes i = i_pops i + 1) ->
  (forall b rv, test_state b -> In (ct_revision b, rv) revisions -> Forall (holds tx b) (i_conditions i) -> IsCodeAt (ct_code b) (ct_pc b) = true -> code_at (ct_code b) (ct_pc b) = i_op i ->
     in_args it <= zlen (ct_stack b) -> zlen (ct_stack b) - in_args it + in_results it <= 1024 -> ct_gas b < i_gas i -> exists e f, Step b rv = Fail e f) ->
  (forall b rv, test_state b -> In (ct_revision b, rv) revisions -> Forall (holds tx b) (i_conditions i) -> IsCodeAt (ct_code b) (ct_pc b) = true -> code_at (ct_code b) (ct_pc b) = i_op i ->
     i_pops i <= zlen (ct_stack b) -> zlen (ct_stack b) + Z.max (i_pushes i - i_pops i) 0 <= 1024 -> i_gas i <= ct_gas b ->
     agrees b (i_effect i (set_pc (u16 (ct_pc b + 1)) (set_gas (s64 (ct_gas b - i_gas i)) b))) (Step b rv)) ->
  Forall rule_ok (rulesFor i).
Proof.
  intros hi hg hp hs hA hD. unfold rulesFor. repeat (apply Forall_app; split).
  - destruct (0 <? i_gas i); [|constructor]. constructor; [|constructor]. intros b rv ht hr hc. cbn [r_conditions r_effect] in *. apply Forall_app in hc. destruct hc as [hc hc'].
    inversion hc' as [|? ? _ c1]; subst. inversion c1 as [|? ? _ c2]; subst. inversion c2 as [|? ? c3 c4]; subst. inversion c4 as [|? ? c5 _]; subst. rewrite holds_op in c3 by apply (tst_pc b ht). apply holds_gas_lt in c5. destruct c3 as [c3 c3'].
    destruct (Z_lt_ge_dec (zlen (ct_stack b)) (in_args it)) as [hl|hl]; [|destruct (Z_lt_ge_dec 1024 (zlen (ct_stack b) - in_args it + in_results it)) as [hl2|hl2]].
    + destruct (step_fails b rv _ _ ht c3' hi ltac:(auto)) as (e & f & ->). apply agrees_fail.
    + destruct (step_fails b rv _ _ ht c3' hi ltac:(auto)) as (e & f & ->). apply agrees_fail.
    + destruct (hA b rv ht hr hc c3 c3' ltac:(lia) ltac:(lia) c5) as (e & f & ->). apply agrees_fail.
  - destruct (0 <? i_pops i); [|constructor]. constructor; [|constructor]. intros b rv ht hr hc. cbn [r_conditions r_effect] in *.
    inversion hc as [|? ? _ c1]; subst. inversion c1 as [|? ? _ c2]; subst. inversion c2 as [|? ? c3 c4]; subst. inversion c4 as [|? ? c5 _]; subst. rewrite holds_op in c3 by apply (tst_pc b ht). apply holds_size_lt in c5. destruct c3 as [c3 c3'].
    destruct (step_fails b rv _ _ ht c3' hi ltac:(right; right; left; lia)) as (e & f & ->). apply agrees_fail.
  - destruct (Z.ltb_spec (i_pops i) (i_pushes i)) as [hlt|]; [|constructor]. destruct (hs hlt) as [hs1 hs2]. constructor; [|constructor]. intros b rv ht hr hc. cbn [r_conditions r_effect] in *. apply Forall_app in hc. destruct hc as [hc hc'].
    inversion hc' as [|? ? _ c1]; subst. inversion c1 as [|? ? _ c2]; subst. inversion c2 as [|? ? c3 c4]; subst. inversion c4 as [|? ? c5 _]; subst. rewrite holds_op in c3 by apply (tst_pc b ht). apply holds_size_ge in c5. destruct c3 as [c3 c3'].
    destruct (step_fails b rv _ _ ht c3' hi ltac:(right; right; right; left; lia)) as (e & f & ->). apply agrees_fail.
  - constructor; [|constructor]. intros b rv ht hr hc. cbn [r_conditions r_effect] in *. apply Forall_app in hc. destruct hc as [hc hc']. apply Forall_app in hc'. destruct hc' as [hc' _].
    rewrite !Forall_cons_iff in hc'. destruct hc' as (_ & c3 & c5 & c7 & c9 & _).
    rewrite holds_op in c3 by apply (tst_pc b ht). apply holds_gas_ge in c5. apply holds_size_ge in c7. apply holds_size_le in c9. destruct c3 as [c3 c3']. apply hD; try assumption. lia.
Qed.
End Frame.
