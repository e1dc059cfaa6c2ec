(** Facts about words and bytes: the functions of Uint256.v / Interp.v compute the mathematical
    functions of SpecEvm.v on words. *)
From Verif Require Import Base Host Uint256 Memory Opcodes Interp SpecEvm.
From Coq Require Import Lia ZArith List Bool Zpow_facts.

Ltac unpow :=
  change (2 ^ 256) with 115792089237316195423570985008687907853269984665640564039457584007913129639936 in *;
  change (2 ^ 255) with 57896044618658097711785492504343953926634992332820282019728792003956564819968 in *;
  change (2 ^ 160) with 1461501637330902918203684832716283019655932542976 in *;
  change (2 ^ 64) with 18446744073709551616 in *;
  change (2 ^ 63) with 9223372036854775808 in *;
  change (2 ^ 62) with 4611686018427387904 in *;
  change (2 ^ 54) with 18014398509481984 in *;
  change (2 ^ 32) with 4294967296 in *.

Lemma U_eq : U = 2 ^ 256. Proof. reflexivity. Qed.

Lemma wrap_to_word z : wrap z = to_word z. Proof. reflexivity. Qed.
Lemma to_word_range z : is_word (to_word z).
Proof. unfold is_word, to_word, U. apply Z.mod_pos_bound. reflexivity. Qed.
Lemma to_word_id z : is_word z -> to_word z = z.
Proof. unfold is_word, to_word, U. intros. apply Z.mod_small; lia. Qed.

Lemma bool_word_range b : is_word (bool_word b).
Proof. unfold is_word; destruct b; cbn; unpow; lia. Qed.
Lemma addr_word a : is_addr a -> is_word a.
Proof. unfold is_addr, is_word. unpow. lia. Qed.
Lemma addr_of_range a : is_addr (addr_of a).
Proof. unfold is_addr, addr_of. apply Z.mod_pos_bound. reflexivity. Qed.

(** ** Bitwise *)
Lemma word_testbit v : is_word v <-> (0 <= v /\ forall i, 256 <= i -> Z.testbit v i = false).
Proof.
  unfold is_word. split.
  - intros [H0 H1]. split; [lia|]. intros i Hi.
    destruct (Z.eq_dec v 0) as [->|Hv]; [apply Z.bits_0|].
    apply Z.bits_above_log2; [lia|].
    assert (Z.log2 v < 256) by (apply Z.log2_lt_pow2; lia). lia.
  - intros [H0 H1]. split; [lia|].
    destruct (Z.eq_dec v 0) as [->|Hv]; [reflexivity|].
    apply Z.log2_lt_pow2; [lia|].
    destruct (Z_lt_ge_dec (Z.log2 v) 256) as [|Hge]; [assumption|].
    specialize (H1 (Z.log2 v) ltac:(lia)).
    rewrite Z.bit_log2 in H1 by lia. discriminate.
Qed.
Lemma land_word a b : is_word a -> is_word b -> is_word (Z.land a b).
Proof.
  rewrite !word_testbit. intros [Ha Ha'] [Hb Hb']. split; [apply Z.land_nonneg; auto|].
  intros i Hi. rewrite Z.land_spec, Ha' by lia. reflexivity.
Qed.
Lemma lor_word a b : is_word a -> is_word b -> is_word (Z.lor a b).
Proof.
  rewrite !word_testbit. intros [Ha Ha'] [Hb Hb']. split; [apply Z.lor_nonneg; auto|].
  intros i Hi. rewrite Z.lor_spec, Ha', Hb' by lia. reflexivity.
Qed.
Lemma lxor_word a b : is_word a -> is_word b -> is_word (Z.lxor a b).
Proof.
  rewrite !word_testbit. intros [Ha Ha'] [Hb Hb']. split; [apply Z.lxor_nonneg; lia|].
  intros i Hi. rewrite Z.lxor_spec, Ha', Hb' by lia. reflexivity.
Qed.

Lemma u_not_spec a : is_word a -> u_not a = U - 1 - a.
Proof.
  intros [? ?]. unfold u_not, wrap, U, Z.lnot.
  replace (Z.pred (- a)) with ((2 ^ 256 - 1 - a) + (-1) * 2 ^ 256) by lia.
  rewrite Z.mod_add by (unpow; lia). apply Z.mod_small. lia.
Qed.

(** ** Signed *)
Lemma sign_bit_spec v : is_word v -> sign_bit v = negb (v <? 2 ^ 255).
Proof.
  intros [H0 H1]. unfold sign_bit. rewrite Z.testbit_eqb by lia.
  destruct (Z.ltb_spec v (2 ^ 255)) as [h|h]; cbn [negb].
  - rewrite Z.div_small by lia. reflexivity.
  - replace (v / 2 ^ 255) with 1; [reflexivity|].
    apply Z.div_unique with (v - 2 ^ 255); unpow; lia.
Qed.

Lemma signed_range v : is_word v -> - 2 ^ 255 <= signed v < 2 ^ 255.
Proof. intros [? ?]. unfold signed, U. destruct (Z.ltb_spec v (2 ^ 255)); unpow; lia. Qed.

Lemma to_word_signed v : is_word v -> to_word (signed v) = v.
Proof.
  intros [? ?]. unfold signed, to_word, U. destruct (Z.ltb_spec v (2 ^ 255)).
  - apply Z.mod_small. lia.
  - replace (v - 2 ^ 256) with (v + (-1) * 2 ^ 256) by lia.
    rewrite Z.mod_add by (unpow; lia). apply Z.mod_small; lia.
Qed.

Lemma signed_eq0 v : is_word v -> (signed v = 0 <-> v = 0).
Proof. intros [? ?]. unfold signed, U. destruct (Z.ltb_spec v (2 ^ 255)); unpow; lia. Qed.

Lemma u_slt_spec a b : is_word a -> is_word b -> u_slt a b = (signed a <? signed b).
Proof.
  intros Ha Hb. unfold u_slt. rewrite !sign_bit_spec by assumption. unfold signed, U.
  destruct Ha, Hb.
  destruct (Z.ltb_spec a (2 ^ 255)), (Z.ltb_spec b (2 ^ 255)); cbn [negb xorb]; unpow;
    repeat match goal with |- context[?x <? ?y] => destruct (Z.ltb_spec x y) end; lia || reflexivity.
Qed.

Lemma u_neg_spec v : is_word v -> v <> 0 -> u_neg v = 2 ^ 256 - v.
Proof.
  intros [? ?] ?. unfold u_neg, wrap.
  replace (- v) with ((2 ^ 256 - v) + (-1) * 2 ^ 256) by lia.
  rewrite Z.mod_add by (unpow; lia). apply Z.mod_small. lia.
Qed.

Lemma abs_spec v : is_word v -> (if sign_bit v then u_neg v else v) = Z.abs (signed v).
Proof.
  intros Hv. rewrite sign_bit_spec by assumption. unfold signed, U.
  destruct (Z.ltb_spec v (2 ^ 255)); cbn [negb].
  - destruct Hv. rewrite Z.abs_eq; lia.
  - rewrite u_neg_spec; [|assumption|unpow; lia]. destruct Hv. rewrite Z.abs_neq; lia.
Qed.

Lemma to_word_neg z : u_neg z = to_word (- z). Proof. reflexivity. Qed.

Lemma sign_bit_neg v : is_word v -> sign_bit v = (signed v <? 0).
Proof.
  intros Hv. rewrite sign_bit_spec by assumption. unfold signed, U. destruct Hv.
  destruct (Z.ltb_spec v (2 ^ 255)); cbn [negb]; destruct (Z.ltb_spec v 0), (Z.ltb_spec (v - 2^256) 0);
    lia || reflexivity.
Qed.

Lemma u_sdivrem_spec a b : is_word a -> is_word b -> b <> 0 ->
  u_sdivrem a b = Ok (w_sdiv a b, w_smod a b).
Proof.
  intros Ha Hb Hb0. unfold u_sdivrem. rewrite !abs_spec, !sign_bit_neg by assumption.
  pose proof (signed_range a Ha) as Ra. pose proof (signed_range b Hb) as Rb.
  assert (signed b <> 0) as Hsb by (rewrite signed_eq0; assumption).
  destruct (Z.eqb_spec (Z.abs (signed b)) 0) as [E|E]; [lia|].
  unfold w_sdiv, w_smod. destruct (Z.eqb_spec b 0); [lia|].
  set (x := signed a) in *. set (y := signed b) in *. clearbody x y.
  rewrite !to_word_neg.
  assert (forall z, 0 <= z <= 2 ^ 255 -> to_word z = z) as Hsm.
  { intros z Hz. apply to_word_id. unfold is_word. unpow. lia. }
  assert (0 <= Z.abs x / Z.abs y <= 2 ^ 255).
  { split; [apply Z.div_pos; lia|]. apply Z.le_trans with (Z.abs x); [|lia].
    apply Z.div_le_upper_bound; [lia|]. nia. }
  assert (0 <= Z.abs x mod Z.abs y <= 2 ^ 255).
  { pose proof (Z.mod_pos_bound (Z.abs x) (Z.abs y) ltac:(lia)). lia. }
  assert (Z.quot x y = Z.sgn x * Z.sgn y * (Z.abs x / Z.abs y)) as Hq.
  { rewrite Z.quot_div by lia. lia. }
  assert (Z.rem x y = Z.sgn x * (Z.abs x mod Z.abs y)) as Hr.
  { rewrite Z.rem_mod by lia. lia. }
  rewrite Hq, Hr.
  destruct (Z.ltb_spec x 0), (Z.ltb_spec y 0); cbn [xorb].
  - rewrite (Z.sgn_neg x), (Z.sgn_neg y) by lia.
    replace (-1 * -1 * (Z.abs x / Z.abs y)) with (Z.abs x / Z.abs y) by lia.
    replace (-1 * (Z.abs x mod Z.abs y)) with (- (Z.abs x mod Z.abs y)) by lia.
    rewrite (Hsm (Z.abs x / Z.abs y)) by lia. reflexivity.
  - rewrite (Z.sgn_neg x), (Z.sgn_pos y) by lia.
    replace (-1 * 1 * (Z.abs x / Z.abs y)) with (- (Z.abs x / Z.abs y)) by lia.
    replace (-1 * (Z.abs x mod Z.abs y)) with (- (Z.abs x mod Z.abs y)) by lia.
    reflexivity.
  - rewrite (Z.sgn_neg y) by lia.
    destruct (Z.eq_dec x 0) as [->|].
    + cbn [Z.abs Z.sgn]. rewrite Z.div_0_l, Z.mod_0_l by lia. reflexivity.
    + rewrite (Z.sgn_pos x) by lia.
      replace (1 * -1 * (Z.abs x / Z.abs y)) with (- (Z.abs x / Z.abs y)) by lia.
      rewrite Z.mul_1_l. rewrite (Hsm (Z.abs x mod Z.abs y)) by lia. reflexivity.
  - rewrite (Z.sgn_pos y) by lia.
    destruct (Z.eq_dec x 0) as [->|].
    + cbn [Z.abs Z.sgn]. rewrite Z.div_0_l, Z.mod_0_l by lia. reflexivity.
    + rewrite (Z.sgn_pos x) by lia. rewrite !Z.mul_1_l.
      rewrite !Hsm by lia. reflexivity.
Qed.

(** ** Shifts *)
Lemma u_shl_spec v n : is_word v -> 0 <= n -> u_shl v n = w_shl n v.
Proof.
  intros. unfold u_shl, w_shl. destruct (Z.ltb_spec n 256); [|reflexivity].
  rewrite Z.shiftl_mul_pow2 by lia. reflexivity.
Qed.
Lemma u_shr_spec v n : 0 <= n -> u_shr v n = w_shr n v.
Proof.
  intros. unfold u_shr, w_shr. destruct (Z.ltb_spec n 256); [|reflexivity].
  rewrite Z.shiftr_div_pow2 by lia. reflexivity.
Qed.
Lemma w_shr_range n v : is_word v -> 0 <= n -> is_word (w_shr n v).
Proof.
  intros [? ?] ?. unfold w_shr, is_word. destruct (n <? 256); [|unpow; lia].
  assert (0 < 2 ^ n) by (apply Z.pow_pos_nonneg; lia).
  split; [apply Z.div_pos; lia|]. apply Z.div_lt_upper_bound; [lia|]. nia.
Qed.

Lemma byte_le_spec v i : 0 <= i -> byte_le v i = (v / 256 ^ i) mod 256.
Proof.
  intros. unfold byte_le. change 255 with (Z.ones 8). rewrite Z.land_ones by lia.
  rewrite Z.shiftr_div_pow2 by lia. rewrite Z.pow_mul_r by lia. reflexivity.
Qed.

Lemma byte_msb_set v i : 0 <= i ->
  negb (Z.land (byte_le v i) 128 =? 0) = Z.testbit v (8 * i + 7).
Proof.
  intros Hi.
  assert (Z.land (byte_le v i) 128 = if Z.testbit v (8 * i + 7) then 128 else 0) as ->.
  2: destruct (Z.testbit v (8 * i + 7)); reflexivity.
  apply Z.bits_inj'. intros k Hk. rewrite Z.land_spec.
  change 128 with (2 ^ 7). rewrite Z.pow2_bits_eqb by lia.
  unfold byte_le. rewrite Z.land_spec. rewrite Z.shiftr_spec by lia.
  destruct (Z.eqb_spec 7 k) as [<-|Hk7].
  - rewrite andb_true_r. replace (7 + 8 * i) with (8 * i + 7) by lia.
    change 255 with (Z.ones 8). rewrite Z.ones_spec_low by lia. rewrite andb_true_r.
    destruct (Z.testbit v (8 * i + 7)); [|rewrite Z.bits_0; reflexivity].
    rewrite Z.pow2_bits_true by lia. reflexivity.
  - rewrite andb_false_r. destruct (Z.testbit v (8 * i + 7)); [|rewrite Z.bits_0; reflexivity].
    rewrite Z.pow2_bits_false by lia. reflexivity.
Qed.

Lemma byte_op_spec i v : is_word i -> byte_op i v = w_byte i v.
Proof.
  intros [H0 _]. unfold byte_op, w_byte. destruct (Z.ltb_spec i 32); [|reflexivity].
  unfold u8. rewrite Z.mod_small by lia. apply byte_le_spec. lia.
Qed.

Lemma kmax_bits i : 0 <= i -> Z.testbit kUint256Max i = (i <? 256).
Proof.
  intros. unfold kUint256Max. change (2 ^ 256 - 1) with (Z.ones 256).
  destruct (Z.ltb_spec i 256); [apply Z.ones_spec_low|apply Z.ones_spec_high]; lia.
Qed.

Lemma to_word_bits z i : 0 <= i -> Z.testbit (to_word z) i = (i <? 256) && Z.testbit z i.
Proof.
  intros. unfold to_word, U. destruct (Z.ltb_spec i 256).
  - rewrite Z.mod_pow2_bits_low by lia. reflexivity.
  - rewrite Z.mod_pow2_bits_high by lia. reflexivity.
Qed.

Lemma half_testbit low m : 0 < m -> 0 <= low < 2 ^ m ->
  (low <? 2 ^ m / 2) = negb (Z.testbit low (m - 1)).
Proof.
  intros Hm Hl. replace (2 ^ m) with (2 * 2 ^ (m - 1)) in * by (rewrite <- Z.pow_succ_r; f_equal; lia).
  rewrite (Z.mul_comm 2), Z.div_mul in * by lia.
  set (h := 2 ^ (m - 1)) in *. assert (0 < h) by (apply Z.pow_pos_nonneg; lia).
  rewrite Z.testbit_eqb by lia. fold h.
  destruct (Z.ltb_spec low h).
  - rewrite Z.div_small by lia. reflexivity.
  - replace (low / h) with 1; [reflexivity|]. apply Z.div_unique with (low - h); lia.
Qed.

Lemma lor_add a b : Z.land a b = 0 -> Z.lor a b = a + b.
Proof.
  intros H. rewrite Z.add_nocarry_lxor by assumption. apply Z.bits_inj'. intros i Hi.
  rewrite Z.lor_spec, Z.lxor_spec. assert (Z.testbit (Z.land a b) i = false) as E by (rewrite H; apply Z.bits_0).
  rewrite Z.land_spec in E. destruct (Z.testbit a i), (Z.testbit b i); cbn in *; congruence.
Qed.

Lemma sub_pow2_bits low m i : 0 <= m -> 0 <= low < 2 ^ m -> 0 <= i ->
  Z.testbit (low - 2 ^ m) i = if i <? m then Z.testbit low i else true.
Proof.
  intros Hm Hl Hi.
  assert (low - 2 ^ m = Z.lor low (Z.lnot (Z.ones m))) as ->.
  { rewrite lor_add.
    - rewrite Z.ones_equiv. unfold Z.lnot. lia.
    - apply Z.bits_inj'. intros k Hk. rewrite Z.land_spec, Z.lnot_spec, Z.bits_0 by lia.
      destruct (Z.ltb_spec k m).
      + rewrite Z.ones_spec_low by lia. apply andb_false_r.
      + replace low with (low mod 2 ^ m) by (apply Z.mod_small; lia).
        rewrite Z.mod_pow2_bits_high by lia. reflexivity. }
  rewrite Z.lor_spec, Z.lnot_spec by lia.
  destruct (Z.ltb_spec i m).
  - rewrite Z.ones_spec_low by lia. apply orb_false_r.
  - rewrite Z.ones_spec_high by lia. apply orb_true_r.
Qed.

Lemma signextend_spec k v : is_word k -> is_word v -> signextend k v = w_signextend k v.
Proof.
  intros [Hk _] Hv. unfold signextend, w_signextend.
  set (b := if 31 <? k then 31 else u8 k).
  assert (b = Z.min k 31 /\ 0 <= b <= 31) as [Eb Rb].
  { subst b. destruct (Z.ltb_spec 31 k); [lia|]. unfold u8. rewrite Z.mod_small; lia. }
  clearbody b. rewrite byte_msb_set by lia.
  assert (forall i, 0 <= i -> 256 <= i -> Z.testbit v i = false) as Hvb.
  { intros. apply word_testbit in Hv. apply Hv. lia. }
  destruct (Z.ltb_spec k 31) as [Hlt|Hge].
  - assert (b = k) by lia. clear Eb. subst b.
    assert (0 <= v mod 2 ^ (8 * (k + 1)) < 2 ^ (8 * (k + 1))) as Hlow
        by (apply Z.mod_pos_bound, Z.pow_pos_nonneg; lia).
    rewrite half_testbit by (assumption || lia).
    replace (8 * (k + 1) - 1) with (8 * k + 7) by lia.
    rewrite Z.mod_pow2_bits_low by lia.
    destruct (Z.testbit v (8 * k + 7)) eqn:Et; cbn [negb].
    + apply Z.bits_inj'. intros i Hi. rewrite to_word_bits, sub_pow2_bits by (assumption || lia).
      unfold u_or. rewrite Z.lor_spec. rewrite u_shl_spec by (unfold is_word, kUint256Max; unpow; lia).
      unfold w_shl. destruct (Z.ltb_spec (8 * (k + 1)) 256); [|lia].
      rewrite to_word_bits by lia. rewrite Z.mul_pow2_bits by lia.
      destruct (Z.ltb_spec i (8 * (k + 1))).
      * rewrite (Z.testbit_neg_r kUint256Max) by lia. rewrite andb_false_r. cbn [orb].
        rewrite Z.mod_pow2_bits_low by lia. destruct (Z.ltb_spec i 256); [reflexivity|lia].
      * rewrite kmax_bits by lia. destruct (Z.ltb_spec i 256); cbn [andb orb].
        -- destruct (Z.ltb_spec (i - 8 * (k + 1)) 256); [reflexivity|lia].
        -- apply Hvb; lia.
    + apply Z.bits_inj'. intros i Hi. rewrite to_word_bits by lia.
      unfold u_and. rewrite Z.land_spec. rewrite u_shr_spec by lia.
      unfold w_shr. destruct (Z.ltb_spec (8 * (31 - k)) 256); [|lia].
      rewrite Z.div_pow2_bits, kmax_bits by lia.
      destruct (Z.ltb_spec i (8 * (k + 1))).
      * rewrite Z.mod_pow2_bits_low by lia.
        destruct (Z.ltb_spec i 256), (Z.ltb_spec (i + 8 * (31 - k)) 256); reflexivity || lia.
      * rewrite Z.mod_pow2_bits_high by lia. rewrite andb_false_r.
        destruct (Z.ltb_spec (i + 8 * (31 - k)) 256); reflexivity || lia.
  - assert (b = 31) by lia. clear Eb. subst b. change (8 * (31 + 1)) with 256. change (8 * (31 - 31)) with 0.
    destruct (Z.testbit v (8 * 31 + 7)).
    + unfold u_shl. cbn [Z.ltb Z.compare Pos.compare Pos.compare_cont]. reflexivity.
    + rewrite u_shr_spec by lia. unfold w_shr. change (0 <? 256) with true. cbv iota.
      rewrite Z.pow_0_r, Z.div_1_r. unfold u_and, kUint256Max. change (2 ^ 256 - 1) with (Z.ones 256).
      rewrite Z.land_comm, Z.land_ones by lia. apply to_word_id in Hv. exact Hv.
Qed.

Lemma w_signextend_range k v : is_word v -> is_word (w_signextend k v).
Proof. intros. unfold w_signextend. destruct (k <? 31); [apply to_word_range|assumption]. Qed.

Lemma sar_spec n v : is_word n -> is_word v -> sar n v = w_sar n v.
Proof.
  intros [Hn _] Hv. unfold sar, w_sar.
  rewrite byte_msb_set by lia. change (8 * 31 + 7) with 255. change (Z.testbit v 255) with (sign_bit v).
  rewrite sign_bit_neg by assumption.
  destruct (Z.leb_spec n 255), (Z.ltb_spec n 256); try lia.
  - rewrite u_shr_spec by lia. unfold w_shr. destruct (Z.ltb_spec n 256); [|lia].
    destruct (Z.ltb_spec (signed v) 0) as [Hs|Hs].
    + assert (signed v = v - 2 ^ 256) as Es.
      { unfold signed, U in *. destruct Hv. destruct (Z.ltb_spec v (2 ^ 255)); lia. }
      rewrite Es.
      assert (2 ^ 255 <= v) as Hbig. { unfold signed, U in *. destruct Hv. destruct (Z.ltb_spec v (2 ^ 255)); lia. }
      apply Z.bits_inj'. intros i Hi. unfold u_or. rewrite Z.lor_spec, to_word_bits by lia.
      rewrite !Z.div_pow2_bits by lia. destruct Hv as [Hv0 Hv1].
      rewrite sub_pow2_bits by lia.
      unfold u_sub, wrap. rewrite (Z.mod_small (255 - n)) by (unpow; lia).
      rewrite u_shl_spec by (unfold is_word, kUint256Max; unpow; lia).
      unfold w_shl. destruct (Z.ltb_spec (255 - n) 256); [|lia].
      rewrite to_word_bits, Z.mul_pow2_bits by lia.
      destruct (Z.ltb_spec i 256); cbn [andb orb].
      * destruct (Z.ltb_spec (i + n) 256).
        -- destruct (Z.ltb_spec i (255 - n)).
           ++ rewrite (Z.testbit_neg_r kUint256Max) by lia. apply orb_false_r.
           ++ assert (i + n = 255) as -> by lia.
              assert (Z.testbit v 255 = true) as ->; [|reflexivity].
              change (Z.testbit v 255) with (sign_bit v). rewrite sign_bit_spec by (split; assumption).
              destruct (Z.ltb_spec v (2 ^ 255)); [lia|reflexivity].
        -- rewrite kmax_bits by lia. destruct (Z.ltb_spec (i - (255 - n)) 256); [|lia].
           apply orb_true_r.
      * rewrite orb_false_r. apply word_testbit; [split; assumption|lia].
    + assert (signed v = v) as ->. { unfold signed, U in *. destruct Hv. destruct (Z.ltb_spec v (2 ^ 255)); lia. }
      rewrite to_word_id; [reflexivity|]. pose proof (w_shr_range n v Hv Hn) as HH.
      unfold w_shr in HH. destruct (Z.ltb_spec n 256); [assumption|lia].
  - destruct (signed v <? 0); reflexivity.
Qed.

(** ** Exponentiation *)
Lemma exp_loop_spec : forall p b r, exp_loop p b r = to_word (r * b ^ Zpos p).
Proof.
  assert (forall x, to_word x = x mod 2 ^ 256) as Ew by reflexivity.
  assert (2 ^ 256 <> 0) as Hne by (unpow; lia).
  induction p; intros b r; cbn [exp_loop].
  - rewrite IHp. unfold u_mul, wrap. rewrite !Ew.
    replace (b ^ Zpos p~1) with (b * (b * b) ^ Zpos p).
    2:{ replace (Zpos p~1) with (1 + 2 * Zpos p) by lia. rewrite Z.pow_add_r, Z.pow_mul_r by lia.
        rewrite Z.pow_1_r, Z.pow_2_r. reflexivity. }
    rewrite Z.mul_assoc. rewrite Z.mul_mod by assumption. rewrite Z.mod_mod by assumption.
    rewrite (Z.mul_mod (r * b)) by assumption. f_equal. f_equal.
    clear. rewrite <- Zpower_mod by (unpow; lia). reflexivity.
  - rewrite IHp. unfold u_mul, wrap. rewrite !Ew.
    replace (b ^ Zpos p~0) with ((b * b) ^ Zpos p).
    2:{ replace (Zpos p~0) with (2 * Zpos p) by lia. rewrite Z.pow_mul_r by lia.
        rewrite Z.pow_2_r. reflexivity. }
    rewrite Z.mul_mod by assumption. rewrite (Z.mul_mod r) by assumption. f_equal. f_equal.
    rewrite <- Zpower_mod by (unpow; lia). reflexivity.
  - unfold u_mul, wrap. rewrite Z.pow_1_r. reflexivity.
Qed.

Lemma u_exp_spec b e : is_word b -> is_word e -> u_exp b e = to_word (b ^ e).
Proof.
  intros _ [He _]. unfold u_exp. destruct (Z.eqb_spec b 2) as [->|].
  - unfold u_shl. destruct (Z.ltb_spec e 256).
    + rewrite Z.shiftl_mul_pow2, Z.mul_1_l by lia. reflexivity.
    + unfold to_word, U. replace e with (256 + (e - 256)) by lia. rewrite Z.pow_add_r by lia.
      rewrite Z.mul_comm, Z.mod_mul by (unpow; lia). reflexivity.
  - destruct e; [reflexivity| |lia]. rewrite exp_loop_spec, Z.mul_1_l. reflexivity.
Qed.

Lemma byte_count_range v : is_word v -> 0 <= byte_count v <= 32.
Proof.
  intros [H0 H1]. unfold byte_count. destruct (Z.eqb_spec v 0); [lia|].
  pose proof (Z.log2_nonneg v). assert (Z.log2 v < 256) by (apply Z.log2_lt_pow2; lia).
  assert (Z.log2 v / 8 < 32) by (apply Z.div_lt_upper_bound; lia).
  pose proof (Z.div_pos (Z.log2 v) 8). lia.
Qed.

(** ** Byte strings *)
Lemma be_app bs cs : be (bs ++ cs) = be bs * 256 ^ zlen cs + be cs.
Proof.
  unfold be. rewrite fold_left_app. generalize (fold_left (fun acc b => 256 * acc + b) bs 0).
  intros a. revert a. unfold zlen. induction cs as [|c cs IH] using rev_ind; intros a.
  - cbn. lia.
  - rewrite !fold_left_app, IH. cbn [fold_left]. rewrite app_length, Nat2Z.inj_add. cbn [length Z.of_nat].
    rewrite Z.pow_add_r by lia. change (256 ^ Z.of_nat 1) with 256. lia.
Qed.
Lemma be_nil : be [] = 0. Proof. reflexivity. Qed.
Lemma be_one b : be [b] = b. Proof. cbn. lia. Qed.
Lemma be_cons b bs : be (b :: bs) = b * 256 ^ zlen bs + be bs.
Proof. change (b :: bs) with ([b] ++ bs). rewrite be_app, be_one. reflexivity. Qed.

Lemma z_of_be_be bs : z_of_be bs = be bs.
Proof.
  unfold z_of_be. induction bs as [|b bs IH] using rev_ind; [reflexivity|].
  rewrite rev_app_distr, be_app, be_one. cbn [rev app z_of_le]. rewrite IH.
  change (256 ^ zlen [b]) with 256. lia.
Qed.

Lemma z_of_le_bytes_le n v : z_of_le (bytes_le n v) = v mod 256 ^ Z.of_nat n.
Proof.
  revert v; induction n; intros v; cbn [bytes_le z_of_le].
  - rewrite Z.mod_1_r. reflexivity.
  - rewrite IHn. rewrite Nat2Z.inj_succ, Z.pow_succ_r by lia.
    rewrite Z.rem_mul_r by lia. lia.
Qed.
Lemma bytes_le_length n v : length (bytes_le n v) = n.
Proof. revert v; induction n; intros; cbn; congruence. Qed.
Lemma bytes_le_z_of_le bs : Forall is_byte bs -> bytes_le (length bs) (z_of_le bs) = bs.
Proof.
  induction 1; cbn [length bytes_le z_of_le]; [reflexivity|]. destruct H.
  f_equal.
  - rewrite Z.mul_comm, Z.mod_add, Z.mod_small; lia.
  - rewrite Z.mul_comm, Z.div_add, Z.div_small by lia. rewrite Z.add_0_l. exact IHForall.
Qed.
Lemma bytes_le_byte n v : Forall is_byte (bytes_le n v).
Proof.
  revert v; induction n; intros; cbn; constructor; auto. apply Z.mod_pos_bound. lia.
Qed.

Lemma Forall_rev' {A} (P : A -> Prop) l : Forall P l -> Forall P (rev l).
Proof. intros H. apply Forall_forall. intros x Hx. rewrite <- in_rev in Hx. revert x Hx. now apply Forall_forall. Qed.

Lemma u_bswap_le bs : length bs = 32%nat -> Forall is_byte bs -> u_bswap (z_of_le bs) = be bs.
Proof.
  intros Hl Hb. unfold u_bswap. rewrite <- Hl, bytes_le_z_of_le by assumption.
  rewrite <- z_of_be_be. reflexivity.
Qed.

Lemma bytes_le_nth n v i : (i < n)%nat -> nth i (bytes_le n v) 0 = (v / 256 ^ Z.of_nat i) mod 256.
Proof.
  revert v i; induction n; intros v i Hi; [lia|]. cbn [bytes_le]. destruct i.
  - cbn [nth]. change (256 ^ Z.of_nat 0) with 1. rewrite Z.div_1_r. reflexivity.
  - cbn [nth]. rewrite IHn by lia. rewrite Nat2Z.inj_succ, Z.pow_succ_r by lia.
    rewrite Z.div_div by lia. reflexivity.
Qed.

Lemma be_bytes_rev n v : be_bytes n v = rev (bytes_le n v).
Proof.
  apply nth_ext with 0 0.
  - unfold be_bytes. rewrite map_length, seq_length, rev_length, bytes_le_length. reflexivity.
  - intros i. unfold be_bytes at 1. rewrite map_length, seq_length. intros Hi.
    unfold be_bytes.
    rewrite nth_indep with (d' := (fun i0 => (v / 256 ^ Z.of_nat (n - 1 - i0)) mod 256) 0%nat)
      by (rewrite map_length, seq_length; assumption).
    rewrite (map_nth (fun i0 => (v / 256 ^ Z.of_nat (n - 1 - i0)) mod 256)), seq_nth by assumption.
    rewrite rev_nth by (rewrite bytes_le_length; assumption). rewrite bytes_le_length.
    rewrite bytes_le_nth by lia. do 4 f_equal. lia.
Qed.

Lemma be_bytes_length n v : length (be_bytes n v) = n.
Proof. unfold be_bytes. rewrite map_length, seq_length. reflexivity. Qed.
Lemma be_bytes_byte n v : Forall is_byte (be_bytes n v).
Proof. rewrite be_bytes_rev. apply Forall_rev', bytes_le_byte. Qed.

Lemma mstore_bytes v : bytes_le 32 (u_bswap v) = be_bytes 32 v.
Proof.
  rewrite be_bytes_rev. unfold u_bswap.
  assert (length (rev (bytes_le 32 v)) = 32%nat) as Hl by (rewrite rev_length, bytes_le_length; reflexivity).
  rewrite <- Hl at 1. apply bytes_le_z_of_le. apply Forall_rev', bytes_le_byte.
Qed.

Lemma be_be_bytes n v : be (be_bytes n v) = v mod 256 ^ Z.of_nat n.
Proof.
  rewrite be_bytes_rev, <- z_of_be_be. unfold z_of_be. rewrite rev_involutive. apply z_of_le_bytes_le.
Qed.

Lemma be_range bs : Forall is_byte bs -> 0 <= be bs < 256 ^ zlen bs.
Proof.
  intros H. rewrite <- (rev_involutive bs) in *. apply Forall_rev' in H. rewrite rev_involutive in H.
  set (cs := rev bs) in *. clearbody cs. clear bs.
  rewrite <- z_of_be_be. unfold z_of_be, zlen. rewrite rev_involutive, rev_length.
  induction H; cbn [length z_of_le].
  - cbn; lia.
  - rewrite Nat2Z.inj_succ, Z.pow_succ_r by lia. destruct H. lia.
Qed.
Lemma be_word bs : Forall is_byte bs -> zlen bs <= 32 -> is_word (be bs).
Proof.
  intros Hb Hl. pose proof (be_range bs Hb). unfold is_word. change (2 ^ 256) with (256 ^ 32).
  assert (256 ^ zlen bs <= 256 ^ 32) by (apply Z.pow_le_mono_r; unfold zlen in *; lia). lia.
Qed.

(** ** PUSH immediates *)
Lemma lor_shift_add w b : 0 <= w -> is_byte b -> Z.lor (Z.shiftl w 8) b = 256 * w + b.
Proof.
  intros Hw [Hb0 Hb1]. rewrite Z.shiftl_mul_pow2 by lia. change (2 ^ 8) with 256.
  assert (Z.land (w * 256) b = 0) as Hz.
  { apply Z.bits_inj'. intros i Hi. rewrite Z.land_spec, Z.bits_0. change 256 with (2 ^ 8).
    rewrite Z.mul_pow2_bits by lia. destruct (Z.ltb_spec i 8).
    - rewrite Z.testbit_neg_r by lia. reflexivity.
    - replace b with (b mod 2 ^ 8) by (apply Z.mod_small; cbn; lia).
      rewrite (Z.mod_pow2_bits_high b) by lia. apply andb_false_r. }
  rewrite lor_add by exact Hz. lia.
Qed.

Lemma fold_lor_be bs : Forall is_byte bs -> forall a, 0 <= a ->
  fold_left (fun word b => Z.lor (Z.shiftl word 8) b) bs a = fold_left (fun acc b => 256 * acc + b) bs a.
Proof.
  induction 1; intros a Ha; cbn [fold_left]; [reflexivity|].
  rewrite lor_shift_add by assumption. apply IHForall. destruct H. lia.
Qed.

Lemma slice_app {A} (l : list A) i n m : 0 <= i -> 0 <= n -> 0 <= m ->
  slice l i (n + m) = slice l i n ++ slice l (i + n) m.
Proof.
  intros. unfold slice. rewrite !Z2Nat.inj_add by lia.
  replace (skipn (Z.to_nat i + Z.to_nat n) l) with (skipn (Z.to_nat n) (skipn (Z.to_nat i) l)).
  - generalize (skipn (Z.to_nat i) l); intros l'. generalize (Z.to_nat n) (Z.to_nat m). clear.
    intros n m. revert l'. induction n; intros l'; [reflexivity|]. destruct l'; cbn; [rewrite firstn_nil; reflexivity|].
    rewrite IHn. reflexivity.
  - clear. rewrite Nat.add_comm. generalize (Z.to_nat i) (Z.to_nat n). clear. intros i. revert l.
    induction i; intros l n; [rewrite Nat.add_0_r; reflexivity|]. rewrite <- plus_n_Sm. destruct l; cbn.
    + rewrite skipn_nil. reflexivity.
    + apply IHi.
Qed.
Lemma slice_zlen {A} (l : list A) i n : 0 <= i -> 0 <= n -> i + n <= zlen l -> zlen (slice l i n) = n.
Proof. unfold slice, zlen. intros. rewrite firstn_length, skipn_length. lia. Qed.
Lemma Forall_firstn' {A} (P : A -> Prop) n l : Forall P l -> Forall P (firstn n l).
Proof. intros H; revert n; induction H; intros [|n]; cbn; constructor; auto. Qed.
Lemma Forall_skipn' {A} (P : A -> Prop) n l : Forall P l -> Forall P (skipn n l).
Proof. intros H; revert n; induction H; intros [|n]; cbn; auto. Qed.
Lemma Forall_slice {A} (P : A -> Prop) l i n : Forall P l -> Forall P (slice l i n).
Proof. intros. apply Forall_firstn', Forall_skipn'. assumption. Qed.

Lemma push_full_words_spec e k : forall p, Forall is_byte (e_code e) -> 0 <= p ->
  p + 8 * Z.of_nat k <= zlen (e_code e) ->
  push_full_words e k p = Ok (be (slice (e_code e) p (8 * Z.of_nat k))).
Proof.
  induction k; intros p Hb Hp Hl; cbn [push_full_words].
  - replace (8 * Z.of_nat 0) with 0 by lia. reflexivity.
  - unfold code_bytes. rewrite Nat2Z.inj_succ in *.
    destruct (Z.leb_spec 0 p); [|lia]. destruct (Z.leb_spec (p + 8) (zlen (e_code e))); [|lia]. cbn [andb rbind].
    rewrite IHk by (assumption || lia). cbn [rbind]. f_equal.
    replace (8 * Z.succ (Z.of_nat k)) with (8 + 8 * Z.of_nat k) by lia.
    rewrite slice_app, be_app by lia. rewrite slice_zlen by lia.
    unfold bswap64_load. fold (z_of_be (slice (e_code e) p 8)). rewrite z_of_be_be.
    do 2 f_equal. change 256 with (2 ^ 8). rewrite <- Z.pow_mul_r by lia. f_equal. lia.
Qed.

Lemma push_value_spec e n pc : Forall is_byte (e_code e) -> 0 <= pc -> 0 <= n ->
  pc + 1 + n <= zlen (e_code e) ->
  push_value e n pc = Ok (be (slice (e_code e) (pc + 1) n)).
Proof.
  intros Hb Hp Hn Hl. unfold push_value.
  assert (0 <= n / 8 /\ 0 <= n mod 8 < 8 /\ n = 8 * (n / 8) + n mod 8) as (Hq & Hr & Hnn).
  { pose proof (Z.div_mod n 8 ltac:(lia)). pose proof (Z.mod_pos_bound n 8 ltac:(lia)).
    pose proof (Z.div_pos n 8 ltac:(lia) ltac:(lia)). lia. }
  set (q := n / 8) in *. set (r := n mod 8) in *. clearbody q r. subst n.
  rewrite (push_full_words_spec e (Z.to_nat q) (pc + 1 + r)); try assumption; try lia.
  rewrite Z2Nat.id by lia.
  assert (be (slice (e_code e) (pc + 1) (8 * q + r)) =
          be (slice (e_code e) (pc + 1) r) * 2 ^ (64 * q) + be (slice (e_code e) (pc + 1 + r) (8 * q))) as ->.
  { rewrite (Z.add_comm (8 * q) r). rewrite slice_app, be_app by lia. rewrite slice_zlen by lia.
    f_equal. f_equal. change 256 with (2 ^ 8). rewrite <- Z.pow_mul_r by lia. f_equal. lia. }
  destruct (Z.eqb_spec r 0) as [->|Hr0]; cbn [rbind].
  - reflexivity.
  - unfold code_bytes. destruct (Z.leb_spec 0 (pc + 1)); [|lia].
    destruct (Z.leb_spec (pc + 1 + r) (zlen (e_code e))); [|lia]. cbn [andb rbind].
    rewrite fold_lor_be by (lia || (apply Forall_slice; assumption)). reflexivity.
Qed.
