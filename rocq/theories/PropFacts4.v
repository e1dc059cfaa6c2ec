(** Consequences about arithmetic, in the form in which the property files state them. *)
From Verif Require Import Base Host SpecEvm SpecVm Vm SpecStep MemFacts ArithFacts SpecFacts Client ClientFacts SpecOps
  SpecHost OpFacts OpFacts2 OpFacts3 ApiFacts PropFacts.
From Coq Require Import Lia ZArith List Bool.
Import ListNotations.

Definition costs {F : Type} (t : list (Z * Z * F)) (n : Z) : list (Z * Z * Z) := map (fun p => (fst (fst p), snd (fst p), n)) t.

Section Arith.
Context {W : Type}.
Variable g : setting W.
Hypothesis Hg : setting_ok g.

Theorem arith_binary v w rv code m si op fee fn rest a b :
  In (op, fee, fn) arithmetic2 -> at_op g v code m si op -> si_stack si = rest ++ [b; a] -> fee <= msg_gas m ->
  steps_to g v w rv code m si (running rv (si_pc si + 1) (msg_gas m - fee) (si_refunds si) (rest ++ [fn a b]) (whole_words (si_mem si)) (si_ret si)) w.
Proof. intros Hi. apply (op_bin g Hg). apply in_or_app. left. exact Hi. Qed.
Theorem bitwise_binary v w rv code m si op fee fn rest a b :
  In (op, fee, fn) bitwise2 -> at_op g v code m si op -> si_stack si = rest ++ [b; a] -> fee <= msg_gas m ->
  steps_to g v w rv code m si (running rv (si_pc si + 1) (msg_gas m - fee) (si_refunds si) (rest ++ [fn a b]) (whole_words (si_mem si)) (si_ret si)) w.
Proof. intros Hi. apply (op_bin g Hg). apply in_or_app. right. exact Hi. Qed.
Theorem bitwise_not v w rv code m si rest a :
  at_op g v code m si 0x19 -> si_stack si = rest ++ [a] -> 3 <= msg_gas m ->
  steps_to g v w rv code m si (running rv (si_pc si + 1) (msg_gas m - 3) (si_refunds si) (rest ++ [2 ^ 256 - 1 - a]) (whole_words (si_mem si)) (si_ret si)) w.
Proof. apply (op_un g Hg v w rv code m si 0x19 3 (fun a => 2 ^ 256 - 1 - a)). right. left. reflexivity. Qed.

Theorem arith_unpaid v w rv code m si op fee n :
  In (op, fee, n) (costs arithmetic2 2 ++ costs bitwise2 2 ++ costs arithmetic3 3 ++ costs unary 1) -> at_op g v code m si op ->
  n <= zlen (si_stack si) -> msg_gas m < fee -> out_of_gas g v w rv code m si.
Proof.
  intros Hi Ho Hn Hf.
  assert (I : exists r, instruction op = Some (mkInstr n r fee Istanbul false) /\ r <= n).
  { cbn in Hi. repeat destruct Hi as [Hi|Hi]; try contradiction; injection Hi as <- <- <-; eexists; split; try reflexivity; lia. }
  destruct I as [r [I Hr]].
  pose proof (sk_height _ _ _ (at_args _ _ _ _ _ _ Ho)) as Hh.
  apply (base_fee_short g Hg v w rv code m si op _ Ho I); cbn [in_since in_stateful in_args in_results in_fee]; try reflexivity; try lia.
  apply istanbul.
Qed.
End Arith.

(** the bits of the results *)
Lemma testbit_mod x k i : 0 <= k -> 0 <= i < k -> Z.testbit (x mod 2 ^ k) i = Z.testbit x i.
Proof. intros. apply Z.mod_pow2_bits_low. lia. Qed.
Lemma testbit_high v i : is_word v -> 256 <= i -> Z.testbit v i = false.
Proof. intros [A B] Hi. rewrite <- (Z.mod_small v (2 ^ 256)) by lia. apply Z.mod_pow2_bits_high. lia. Qed.
Lemma sgn_bit v i : is_word v -> 0 <= i -> Z.testbit (sgn v) i = Z.testbit v (Z.min i 255).
Proof.
  intros Hv Hi. assert (E : v = sgn v mod 2 ^ 256).
  { unfold sgn. destruct (v <? 2 ^ 255); [symmetry; apply Z.mod_small; exact Hv|]. symmetry. change (v - 2 ^ 256) with (v + - 2 ^ 256).
    replace (v + - 2 ^ 256) with (v + (-1) * 2 ^ 256) by lia. rewrite Z_mod_plus_full. apply Z.mod_small. exact Hv. }
  destruct (Z_lt_dec i 256) as [D|D].
  - replace (Z.min i 255) with i by lia. rewrite E at 2. symmetry. apply testbit_mod; lia.
  - replace (Z.min i 255) with 255 by lia.
    assert (R : - 2 ^ 255 <= sgn v < 2 ^ 255).
    { unfold sgn. destruct Hv as [A B]. destruct (Z.ltb_spec v (2 ^ 255)); [lia|]. change (2 ^ 256) with (2 * 2 ^ 255) in *. lia. }
    rewrite E at 2. rewrite testbit_mod by lia.
    assert (S : forall j, 255 <= j -> Z.testbit (sgn v) j = (sgn v <? 0)).
    { intros j Hj. replace j with ((j - 255) + 255) by lia. rewrite <- Z.div_pow2_bits by lia.
      destruct (Z.ltb_spec (sgn v) 0).
      - replace (sgn v / 2 ^ 255) with (-1); [apply Z.bits_m1; lia|]. apply Z.div_unique with (r := sgn v + 2 ^ 255); lia.
      - rewrite Z.div_small by lia. apply Z.bits_0. }
    rewrite !S by lia. reflexivity.
Qed.
Theorem bit_by_bit n v i : is_word n -> is_word v -> 0 <= i < 256 ->
  Z.testbit (shift_left n v) i = (if n <=? i then Z.testbit v (i - n) else false) /\
  Z.testbit (shift_right n v) i = (if i + n <? 256 then Z.testbit v (i + n) else false) /\
  Z.testbit (arithmetic_shift n v) i = Z.testbit v (Z.min (i + n) 255) /\
  Z.testbit (sign_extend n v) i = Z.testbit v (Z.min i (Z.min (8 * n + 7) 255)) /\
  Z.testbit (2 ^ 256 - 1 - v) i = negb (Z.testbit v i) /\
  Z.testbit (byte_of n v) i = (if (n <? 32) && (i <? 8) then Z.testbit v (8 * (31 - n) + i) else false).
Proof.
  intros Hn Hv Hi. destruct Hn as [Hn _].
  split; [|split; [|split; [|split; [|split]]]].
  - unfold shift_left. destruct (Z.ltb_spec n 256).
    + unfold uns. rewrite testbit_mod by lia. rewrite Z.mul_pow2_bits by lia. destruct (Z.leb_spec n i); [reflexivity|]. apply Z.testbit_neg_r. lia.
    + rewrite Z.bits_0. destruct (Z.leb_spec n i); [lia|reflexivity].
  - unfold shift_right. destruct (Z.ltb_spec n 256).
    + rewrite Z.div_pow2_bits by lia. destruct (Z.ltb_spec (i + n) 256); [reflexivity|]. apply testbit_high; [exact Hv|lia].
    + rewrite Z.bits_0. destruct (Z.ltb_spec (i + n) 256); [lia|reflexivity].
  - unfold arithmetic_shift. destruct (Z.ltb_spec n 256).
    + unfold uns. rewrite testbit_mod by lia. rewrite Z.div_pow2_bits by lia. apply sgn_bit; [exact Hv|lia].
    + replace (Z.min (i + n) 255) with 255 by lia.
      assert (E : Z.testbit v 255 = (sgn v <? 0)).
      { pose proof (sgn_bit v 256 Hv ltac:(lia)) as X. change (Z.min 256 255) with 255 in X. rewrite <- X.
        assert (R : - 2 ^ 255 <= sgn v < 2 ^ 255).
        { unfold sgn. destruct Hv as [A B]. destruct (Z.ltb_spec v (2 ^ 255)); [lia|]. change (2 ^ 256) with (2 * 2 ^ 255) in *. lia. }
        change 256 with (0 + 256) at 1. rewrite <- Z.div_pow2_bits by lia.
        destruct (Z.ltb_spec (sgn v) 0).
        - replace (sgn v / 2 ^ 256) with (-1); [reflexivity|]. apply Z.div_unique with (r := sgn v + 2 ^ 256); change (2 ^ 256) with (2 * 2 ^ 255); lia.
        - rewrite Z.div_small; [reflexivity|]. change (2 ^ 256) with (2 * 2 ^ 255). lia. }
      rewrite E. destruct (sgn v <? 0); [|apply Z.bits_0].
      change (2 ^ 256 - 1) with (Z.pred (2 ^ 256)). rewrite <- Z.ones_equiv. apply Z.ones_spec_low. lia.
  - unfold sign_extend. destruct (Z.ltb_spec n 31).
    + cbv zeta. set (k := 8 * (n + 1)). assert (Hk : 8 <= k <= 248) by (subst k; lia).
      replace (Z.min (8 * n + 7) 255) with (k - 1) by (subst k; lia).
      unfold uns. rewrite testbit_mod by lia.
      assert (P : 2 ^ k = 2 * 2 ^ (k - 1)) by (rewrite <- Z.pow_succ_r by lia; f_equal; lia).
      assert (P0 : 0 < 2 ^ (k - 1)) by (apply Z.pow_pos_nonneg; lia).
      assert (Hh : 2 ^ k / 2 = 2 ^ (k - 1)) by (rewrite P, Z.mul_comm; apply Z.div_mul; discriminate). rewrite Hh.
      pose proof (Z.mod_pos_bound v (2 ^ k) ltac:(lia)) as Hl. set (low := v mod 2 ^ k) in *.
      assert (Lb : forall j, 0 <= j < k -> Z.testbit low j = Z.testbit v j) by (intros; apply testbit_mod; lia).
      assert (T : Z.testbit v (k - 1) = negb (low <? 2 ^ (k - 1))).
      { rewrite <- Lb by lia. replace (k - 1) with (0 + (k - 1)) at 1 by lia. rewrite <- Z.div_pow2_bits by lia. destruct (Z.ltb_spec low (2 ^ (k - 1))).
        - rewrite Z.div_small by lia. reflexivity.
        - replace (low / 2 ^ (k - 1)) with 1; [reflexivity|]. apply Z.div_unique with (r := low - 2 ^ (k - 1)); lia. }
      destruct (Z_lt_dec i k) as [D|D].
      * replace (Z.min i (k - 1)) with i by lia. rewrite <- Lb by lia. destruct (low <? 2 ^ (k - 1)); [reflexivity|].
        rewrite <- (testbit_mod (low - 2 ^ k) k i) by lia. replace (low - 2 ^ k) with (low + (-1) * 2 ^ k) by lia. rewrite Z_mod_plus_full, Z.mod_small by lia. reflexivity.
      * replace (Z.min i (k - 1)) with (k - 1) by lia. rewrite T. replace i with ((i - k) + k) by lia. rewrite <- Z.div_pow2_bits by lia. destruct (Z.ltb_spec low (2 ^ (k - 1))).
        -- rewrite Z.div_small by lia. apply Z.bits_0.
        -- replace ((low - 2 ^ k) / 2 ^ k) with (-1); [apply Z.bits_m1; lia|]. apply Z.div_unique with (r := low); lia.
    + replace (Z.min (8 * n + 7) 255) with 255 by lia. replace (Z.min i 255) with i by lia. reflexivity.
  - replace (2 ^ 256 - 1 - v) with (Z.lnot v + 1 * 2 ^ 256) by (unfold Z.lnot; lia).
    rewrite <- (testbit_mod _ 256) by lia. rewrite Z_mod_plus_full, testbit_mod by lia. apply Z.lnot_spec. lia.
  - unfold byte_of. destruct (Z.ltb_spec n 32); cbn [andb]; [|apply Z.bits_0].
    change 256 with (2 ^ 8). destruct (Z.ltb_spec i 8).
    + rewrite testbit_mod by lia. rewrite Z.div_pow2_bits by lia. f_equal. lia.
    + apply Z.mod_pow2_bits_high. lia.
Qed.
