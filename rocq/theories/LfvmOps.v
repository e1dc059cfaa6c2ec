(** Each operation of the Go interpreter simulates the instruction of the reference semantics (all but jumps, PUSHes, calls and
    creations). *)
From Verif Require Import Base Host Uint256 SpecEvm SpecCall ArithFacts MemFacts JumpFacts SpecFacts GoAdapter LfvmCode Lfvm LfvmSim.
From Coq Require Import Lia ZArith List Bool.
Import ListNotations.
Open Scope Z_scope.

(** ** Word functions *)
Lemma setBytes_be bs : setBytes bs = be bs.
Proof. apply z_of_be_be. Qed.
Lemma bytes32_be v : bytes32 v = be_bytes 32 v.
Proof. symmetry. apply be_bytes_rev. Qed.
Lemma total_div a b : total (u_div a b) = w_div a b.
Proof. unfold u_div, w_div. destruct (b =? 0); reflexivity. Qed.
Lemma total_mod a b : total (u_mod a b) = w_mod a b.
Proof. unfold u_mod, w_mod. destruct (b =? 0); reflexivity. Qed.
Lemma total_addmod a b n : total (u_addmod a b n) = w_addmod a b n.
Proof. unfold u_addmod, w_addmod. destruct (n =? 0); reflexivity. Qed.
Lemma total_mulmod a b n : total (u_mulmod a b n) = w_mulmod a b n.
Proof. unfold u_mulmod, w_mulmod. destruct (n =? 0); reflexivity. Qed.
Lemma divrem0_spec a b : is_word a -> is_word b -> divrem0 true a b = w_sdiv a b /\ divrem0 false a b = w_smod a b.
Proof.
  intros ha hb. unfold divrem0. destruct (Z.eq_dec b 0) as [->|hz].
  - assert (E : u_sdivrem a 0 = Undef UB_div0) by reflexivity. rewrite E. split; reflexivity.
  - rewrite u_sdivrem_spec by assumption. split; reflexivity.
Qed.
Lemma byteOf_spec th v : is_word th -> byteOf th v = w_byte th v.
Proof.
  intros h. unfold byteOf, w_byte. destruct (Z.ltb_spec th 32); [|reflexivity]. unfold is_word in h.
  change (Z.land (Z.shiftr v (8 * (31 - th))) 255) with (byte_le v (31 - th)). apply byte_le_spec. lia.
Qed.
Lemma sRsh_spec v n : is_word v -> 0 <= n -> sRsh v n = to_word (signed v / 2 ^ n).
Proof.
  intros hv hn. unfold sRsh, signed. rewrite sign_bit_spec by assumption. unfold is_word in hv.
  destruct (Z.ltb_spec v (2 ^ 255)); cbn [negb].
  - rewrite Z.shiftr_div_pow2 by lia. symmetry. apply to_word_id. unfold is_word.
    assert (0 < 2 ^ n) by (apply Z.pow_pos_nonneg; lia). split; [apply Z.div_pos; lia|]. apply Z.le_lt_trans with v; [|lia].
    apply Z.div_le_upper_bound; [lia|]. nia.
  - rewrite Z.shiftr_div_pow2 by lia. reflexivity.
Qed.
Lemma sarOf_spec a b : is_word a -> is_word b -> sarOf a b = w_sar a b.
Proof.
  intros ha hb. unfold sarOf, w_sar. unfold is_word in ha. pose proof (signed_range b hb) as hs.
  destruct (Z.ltb_spec 256 a).
  - destruct (Z.ltb_spec a 256); [lia|]. rewrite sign_bit_neg by assumption. destruct (signed b <? 0); reflexivity.
  - rewrite u64_small by lia. rewrite sRsh_spec by (try assumption; lia). destruct (Z.ltb_spec a 256); [reflexivity|].
    assert (a = 256) by lia. subst a. destruct (Z.ltb_spec (signed b) 0).
    + replace (signed b / 2 ^ 256) with (-1) by (apply Z.div_unique with (signed b + 2 ^ 256); lia). reflexivity.
    + rewrite Z.div_small by lia. reflexivity.
Qed.
Lemma shrOf_spec a b : is_word a -> is_word b -> shrOf a b = w_shr a b.
Proof.
  intros ha hb. unfold shrOf. unfold is_word in ha. destruct (Z.ltb_spec a 256).
  - rewrite u64_small by lia. apply u_shr_spec. lia.
  - unfold w_shr. destruct (Z.ltb_spec a 256); [lia|reflexivity].
Qed.
Lemma shlOf_spec a b : is_word a -> is_word b -> shlOf a b = w_shl a b.
Proof.
  intros ha hb. unfold shlOf. unfold is_word in ha. destruct (Z.ltb_spec a 256).
  - rewrite u64_small by lia. apply u_shl_spec; [assumption|lia].
  - unfold w_shl. destruct (Z.ltb_spec a 256); [lia|reflexivity].
Qed.
Lemma low_bits v m : 0 <= v -> 0 <= m -> Z.land v (Z.shiftl 1 m - 1) = v mod 2 ^ m.
Proof.
  intros hv hm. rewrite Z.shiftl_1_l. replace (2 ^ m - 1) with (Z.ones m) by (rewrite Z.ones_equiv; lia). apply Z.land_ones. exact hm.
Qed.
Lemma extendSign_spec k v : is_word k -> is_word v -> extendSign k v = w_signextend k v.
Proof.
  intros hk hv. unfold extendSign, w_signextend. unfold is_word in hk. destruct (Z.ltb_spec 30 k); destruct (Z.ltb_spec k 31); try lia.
  cbv zeta. set (b := k * 8 + 7). assert (hb : 7 <= b < 256) by (unfold b; lia). replace (8 * (k + 1)) with (b + 1) by (unfold b; lia).
  pose proof (proj1 (word_testbit v) hv) as [hv0 hvb].
  assert (hm : 0 < 2 ^ (b + 1)) by (apply Z.pow_pos_nonneg; lia).
  pose proof (Z.mod_pos_bound v (2 ^ (b + 1)) hm) as hlow. set (low := v mod 2 ^ (b + 1)) in *.
  rewrite (half_testbit low (b + 1)) by lia. replace (b + 1 - 1) with b by lia.
  assert (E : Z.testbit low b = Z.testbit v b) by (unfold low; apply Z.mod_pow2_bits_low; lia). rewrite E.
  destruct (Z.testbit v b) eqn:Eb; cbn [negb].
  - apply Z.bits_inj'. intros i hi. rewrite Z.lor_spec, to_word_bits by lia. rewrite sub_pow2_bits by lia.
    unfold u_not. rewrite wrap_to_word, to_word_bits by lia. rewrite Z.lnot_spec by lia.
    replace (Z.shiftl 1 b - 1) with (Z.ones b) by (rewrite Z.shiftl_1_l, Z.ones_equiv; lia). rewrite Z.testbit_ones_nonneg by lia.
    destruct (Z.ltb_spec i 256) as [h2|h2]; [|rewrite hvb by lia; reflexivity].
    unfold low. destruct (Z.ltb_spec i (b + 1)).
    + rewrite Z.mod_pow2_bits_low by lia. destruct (Z.ltb_spec i b); [cbn; rewrite orb_false_r; reflexivity|].
      assert (i = b) by lia. subst i. rewrite Eb. reflexivity.
    + destruct (Z.ltb_spec i b); [lia|]. cbn. rewrite orb_true_r. reflexivity.
  - rewrite to_word_id.
    2:{ unfold is_word. assert (2 ^ (b + 1) <= 2 ^ 256) by (apply Z.pow_le_mono_r; lia). lia. }
    rewrite low_bits by lia. apply Z.bits_inj'. intros i hi. unfold low.
    destruct (Z_lt_ge_dec i b). { rewrite !Z.mod_pow2_bits_low by lia. reflexivity. }
    rewrite Z.mod_pow2_bits_high by lia. destruct (Z.eq_dec i b) as [->|]; [rewrite Z.mod_pow2_bits_low by lia; auto|].
    rewrite Z.mod_pow2_bits_high by lia. reflexivity.
Qed.
Lemma u64_le z : 0 <= z -> u64 z <= z.
Proof. intros. unfold u64. apply Z.mod_le; lia. Qed.
Lemma word_cost k n : 0 <= k <= 6 -> 0 <= n < 2 ^ 64 -> s64 (u64 (k * sizeInWords (u64 n))) = k * words n.
Proof.
  intros hk hn. rewrite (u64_small n) by lia. rewrite sizeInWords_words by lia. pose proof (words_range n hn).
  assert (0 <= k * words n <= 6 * 2 ^ 59) by (split; [apply Z.mul_nonneg_nonneg; lia|apply Z.mul_le_mono_nonneg; lia]).
  rewrite u64_small by lia. apply s64_small. lia.
Qed.
Lemma word_cost_nonneg k n : 0 <= k <= 6 -> 0 <= s64 (u64 (k * sizeInWords (u64 n))).
Proof. intros hk. rewrite <- (u64_small (u64 n)) by apply u64_range. rewrite word_cost; [|lia|apply u64_range]. pose proof (words_range (u64 n) (u64_range n)). apply Z.mul_nonneg_nonneg; lia. Qed.
Lemma big_fee act n off g : 0 <= act -> 0 <= off -> 2 ^ 64 <= n -> g + Gmem act < 2 ^ 54 -> g < Gmem (expand act off n) - Gmem act.
Proof. intros. apply big_access; try lia. pose proof (words_bound (off + n)). lia. Qed.

Lemma getData_spec d off n : Forall is_byte d -> zlen d < 2 ^ 63 -> is_word off -> 0 <= n < 2 ^ 63 -> getData d off n = data_bytes d off n.
Proof.
  intros hd hl ho hn. unfold is_word in ho. pose proof (zlen_nonneg d). unfold getData. destruct (Z.eqb_spec n 0) as [->|hz]; [reflexivity|].
  apply list_data_ext.
  - rewrite data_bytes_zlen. unfold isUint64. destruct (Z.ltb_spec off (2 ^ 64)); cbn [negb orb]; [|rewrite zlen_zeros; reflexivity].
    rewrite (u64_small off) by lia. destruct (Z.leb_spec (zlen d) off); [rewrite zlen_zeros; reflexivity|].
    rewrite u64_small by lia. rewrite zlen_app, zlen_zeros. destruct (Z.ltb_spec (zlen d) (off + n)); rewrite slice_zlen by lia; lia.
  - intros i hi. assert (hi0 : 0 <= i) by lia.
    assert (hz2 : zlen (data_bytes d off n) = n) by (rewrite data_bytes_zlen; lia).
    assert (hin : i < n -> data_at (data_bytes d off n) i = data_at d (off + i)).
    { intros. rewrite data_bytes_read, read_bytes_at by lia. reflexivity. }
    revert hi. unfold isUint64. destruct (Z.ltb_spec off (2 ^ 64)); cbn [negb orb].
    2:{ rewrite zlen_zeros. intros hi. rewrite data_at_zeros, hin by lia. rewrite data_at_out by lia. reflexivity. }
    rewrite (u64_small off) by lia. destruct (Z.leb_spec (zlen d) off).
    { rewrite zlen_zeros. intros hi. rewrite data_at_zeros, hin by lia. rewrite data_at_out by lia. reflexivity. }
    rewrite u64_small by lia. set (e := if zlen d <? off + n then zlen d else off + n).
    assert (he : off < e <= zlen d /\ e - off <= n /\ (e = off + n \/ e = zlen d)) by (unfold e; destruct (Z.ltb_spec (zlen d) (off + n)); lia).
    rewrite zlen_app, zlen_zeros, slice_zlen by lia. intros hi. rewrite hin by lia. rewrite data_at_app by lia. rewrite slice_zlen by lia.
    destruct (Z.ltb_spec i (e - off)).
    + rewrite slice_read by lia. rewrite read_bytes_at by lia. reflexivity.
    + rewrite data_at_zeros. rewrite data_at_out by lia. reflexivity.
Qed.

Section Ops.
Context {W : Type}.
Variable rc : run_context W.
Variable tx : tx_context.
Variable Call : W -> go_kind -> call_params -> option call_result * W.
Variable keccak : list Z -> Z.
Variable p : parameters.
Variable code : lcode.
Variable rv : revision.
Hypothesis Hrev : toEvmcRevision (p_revision p) = Some rv.
Hypothesis Hhost : host_ok (go_host rc tx).
Hypothesis Hmsg : msg_ok (message_of p).
Hypothesis Hkeccak : forall d, is_word (keccak d).
Hypothesis Hcode : Forall is_byte (p_code p).
Hypothesis Hlen : zlen (p_code p) < 2 ^ 63.

Notation H := (go_host rc tx).
Notation msg := (message_of p).
Notation frame := (frame W).
Notation ctx := (ctx W).
Notation oc := (oc W).

(** revisions *)
Lemma rev_cases : (p_revision p = 0 /\ rv = Istanbul) \/ (p_revision p = 1 /\ rv = Berlin) \/ (p_revision p = 2 /\ rv = London) \/
  (p_revision p = 3 /\ rv = Paris) \/ (p_revision p = 4 /\ rv = Shanghai) \/ (p_revision p = 5 /\ rv = Cancun).
Proof.
  revert Hrev. clear. unfold toEvmcRevision. destruct (p_revision p) as [|q|q]; intros h; try discriminate; [left; split; congruence|].
  destruct q as [[q|q|]|[q|q|]|]; try discriminate; try (destruct q; try discriminate).
  all: injection h as <-; intuition auto.
Qed.
Lemma at_berlin : isAtLeast p 1 = rev_ge rv Berlin.
Proof. unfold isAtLeast. destruct rev_cases as [[-> ->]|[[-> ->]|[[-> ->]|[[-> ->]|[[-> ->]|[-> ->]]]]]]; reflexivity. Qed.
Lemma at_london : isAtLeast p 2 = rev_ge rv London.
Proof. unfold isAtLeast. destruct rev_cases as [[-> ->]|[[-> ->]|[[-> ->]|[[-> ->]|[[-> ->]|[-> ->]]]]]]; reflexivity. Qed.
Lemma at_shanghai : isAtLeast p 4 = rev_ge rv Shanghai.
Proof. unfold isAtLeast. destruct rev_cases as [[-> ->]|[[-> ->]|[[-> ->]|[[-> ->]|[[-> ->]|[-> ->]]]]]]; reflexivity. Qed.
Lemma at_cancun : isAtLeast p 5 = rev_ge rv Cancun.
Proof. unfold isAtLeast. destruct rev_cases as [[-> ->]|[[-> ->]|[[-> ->]|[[-> ->]|[[-> ->]|[-> ->]]]]]]; reflexivity. Qed.
Lemma static_flag : static msg = p_static p.
Proof. unfold static, message_of. cbn. destruct (p_static p); reflexivity. Qed.

Definition sim (a r : Z) (ex : frame -> outcome W) (op : ctx -> res oc) : Prop :=
  forall (P : Z -> Z -> Prop) f c, R f c -> fine f -> a <= zlen (f_stack f) -> zlen (f_stack f) - a + r <= 1024 ->
  P (f_pc f + 1) (c_pc c) -> out_ok P (ex f) (op c).

Ltac G0 := cbn [f_pc f_gas f_stack f_mem f_active f_ret f_refund f_world
  with_pc with_gas with_stack with_mem with_active with_ret add_refund with_world next yield touch
  c_pc c_gas c_refund c_stack c_store c_cost c_ret c_world
  set_pc set_gas set_refund set_stack set_store set_cost set_ret set_world] in *.
Ltac G := G0; repeat match goal with
  | |- context [with_gas ?v (mkFrame ?xa ?xb ?xc ?xd ?xe ?xf ?xg ?xh)] => change (with_gas v (mkFrame xa xb xc xd xe xf xg xh)) with (mkFrame xa v xc xd xe xf xg xh)
  | |- context [with_stack ?v (mkFrame ?xa ?xb ?xc ?xd ?xe ?xf ?xg ?xh)] => change (with_stack v (mkFrame xa xb xc xd xe xf xg xh)) with (mkFrame xa xb v xd xe xf xg xh)
  | |- context [with_mem ?v (mkFrame ?xa ?xb ?xc ?xd ?xe ?xf ?xg ?xh)] => change (with_mem v (mkFrame xa xb xc xd xe xf xg xh)) with (mkFrame xa xb xc v xe xf xg xh)
  | |- context [with_active ?v (mkFrame ?xa ?xb ?xc ?xd ?xe ?xf ?xg ?xh)] => change (with_active v (mkFrame xa xb xc xd xe xf xg xh)) with (mkFrame xa xb xc xd v xf xg xh)
  | |- context [with_ret ?v (mkFrame ?xa ?xb ?xc ?xd ?xe ?xf ?xg ?xh)] => change (with_ret v (mkFrame xa xb xc xd xe xf xg xh)) with (mkFrame xa xb xc xd xe v xg xh)
  | |- context [with_world ?v (mkFrame ?xa ?xb ?xc ?xd ?xe ?xf ?xg ?xh)] => change (with_world v (mkFrame xa xb xc xd xe xf xg xh)) with (mkFrame xa xb xc xd xe xf xg v)
  | |- context [with_pc ?v (mkFrame ?xa ?xb ?xc ?xd ?xe ?xf ?xg ?xh)] => change (with_pc v (mkFrame xa xb xc xd xe xf xg xh)) with (mkFrame v xb xc xd xe xf xg xh)
  | |- context [set_pc ?v (mkCtx ?xa ?xb ?xc ?xd ?xe ?xf ?xg ?xh)] => change (set_pc v (mkCtx xa xb xc xd xe xf xg xh)) with (mkCtx v xb xc xd xe xf xg xh)
  | |- context [set_gas ?v (mkCtx ?xa ?xb ?xc ?xd ?xe ?xf ?xg ?xh)] => change (set_gas v (mkCtx xa xb xc xd xe xf xg xh)) with (mkCtx xa v xc xd xe xf xg xh)
  | |- context [set_refund ?v (mkCtx ?xa ?xb ?xc ?xd ?xe ?xf ?xg ?xh)] => change (set_refund v (mkCtx xa xb xc xd xe xf xg xh)) with (mkCtx xa xb v xd xe xf xg xh)
  | |- context [set_stack ?v (mkCtx ?xa ?xb ?xc ?xd ?xe ?xf ?xg ?xh)] => change (set_stack v (mkCtx xa xb xc xd xe xf xg xh)) with (mkCtx xa xb xc v xe xf xg xh)
  | |- context [set_store ?v (mkCtx ?xa ?xb ?xc ?xd ?xe ?xf ?xg ?xh)] => change (set_store v (mkCtx xa xb xc xd xe xf xg xh)) with (mkCtx xa xb xc xd v xf xg xh)
  | |- context [set_cost ?v (mkCtx ?xa ?xb ?xc ?xd ?xe ?xf ?xg ?xh)] => change (set_cost v (mkCtx xa xb xc xd xe xf xg xh)) with (mkCtx xa xb xc xd xe v xg xh)
  | |- context [set_ret ?v (mkCtx ?xa ?xb ?xc ?xd ?xe ?xf ?xg ?xh)] => change (set_ret v (mkCtx xa xb xc xd xe xf xg xh)) with (mkCtx xa xb xc xd xe xf v xh)
  | |- context [set_world ?v (mkCtx ?xa ?xb ?xc ?xd ?xe ?xf ?xg ?xh)] => change (set_world v (mkCtx xa xb xc xd xe xf xg xh)) with (mkCtx xa xb xc xd xe xf xg v)
  end.
Ltac start := intros P [pc g stk mf act rt rf w] [cpc cg crf cstk store cost crt cw] hR hF ha hb hP;
  pose proof (r_gas _ _ hR) as e1; pose proof (r_refund _ _ hR) as e2; pose proof (r_stack _ _ hR) as e3; pose proof (r_ret _ _ hR) as e4;
  pose proof (r_world _ _ hR) as e5; pose proof (r_words _ _ hR) as hws; G; subst cg crf cstk crt cw; rewrite ?zlen_cons, ?zlen_nil in *.
Ltac pop1 := match goal with h : Zpos ?n <= zlen ?l |- _ => is_var l; destruct l; [change (zlen (@nil Z)) with 0 in h; exfalso; lia|];
    rewrite zlen_cons in *; let m := eval compute in (Zpos n - 1) in
    lazymatch m with 0 => clear h | _ => match type of h with _ <= zlen ?l' + 1 => let h' := fresh "ha" in assert (h' : m <= zlen l') by lia; clear h end end;
    match goal with h : Forall is_word (_ :: _) |- _ => let h1 := fresh "hw" in pose proof (Forall_inv h) as h1; apply Forall_inv_tail in h end end.
Ltac pops := repeat pop1.
Ltac nonneg := repeat match goal with |- context [zlen ?l] => is_var l; lazymatch goal with h : 0 <= zlen l |- _ => fail | _ => pose proof (zlen_nonneg l) end end.

Lemma spop_eq a s cpc g rf st co rt w (k : Z -> ctx -> res oc) :
  spop (mkCtx cpc g rf (a :: s) st co rt w) k = k a (mkCtx cpc g rf s st co rt w).
Proof. reflexivity. Qed.
Lemma speek0_eq a s cpc g rf st co rt (w : W) (k : Z -> res oc) : speek 0 (mkCtx cpc g rf (a :: s) st co rt w) k = k a.
Proof. reflexivity. Qed.
Lemma sset0_eq v a s cpc g rf st co rt w (k : ctx -> res oc) :
  sset 0 v (mkCtx cpc g rf (a :: s) st co rt w) k = k (mkCtx cpc g rf (v :: s) st co rt w).
Proof.
  unfold sset. G. rewrite zlen_cons. pose proof (zlen_nonneg s). destruct (Z.ltb_spec 0 (zlen s + 1)); [reflexivity|lia].
Qed.
Lemma spush_eq v s cpc g rf st co rt w (k : ctx -> res oc) : zlen s < 1024 ->
  spush v (mkCtx cpc g rf s st co rt w) k = k (mkCtx cpc g rf (v :: s) st co rt w).
Proof. intros h. unfold spush. G. destruct (Z.ltb_spec (zlen s) 1024); [reflexivity|lia]. Qed.
Ltac acc := repeat first [rewrite spop_eq | rewrite speek0_eq | rewrite sset0_eq | rewrite spush_eq by (rewrite ?zlen_cons in *; lia)].

Ltac fin := eexists; split; [reflexivity|]; split;
  [match goal with h : R _ _ |- _ => destruct h end; split; G; try assumption; try lia; try (match goal with |- ?x = ?x => reflexivity end); try (repeat (apply Forall_cons; [try assumption|]); assumption) | G; try assumption].
Ltac failed := eexists; reflexivity.

(** ** Gas and memory, for explicit states *)
Lemma gas_step (Q : res oc -> Prop) a cpc g rf s st co rt w (k : ctx -> res oc) : 0 <= g -> 0 <= a ->
  (a <= g -> Q (k (mkCtx cpc (g - a) rf s st co rt w))) -> (g < a -> forall c, Q (err c)) -> Q (useGas a (mkCtx cpc g rf s st co rt w) k).
Proof. intros hg ha h1 h2. apply useGas_ok; G; auto. Qed.

Lemma slice_step (Q : res oc -> Prop) pc g stk mf act rt rf w cpc store cost off n k :
  R (mkFrame pc g stk mf act rt rf w) (mkCtx cpc g rf stk store cost rt w) -> 0 <= g -> g + Gmem act < 2 ^ 54 -> is_word off -> is_word n ->
  (forall store' cost', let fee := Gmem (expand act off n) - Gmem act in 0 <= fee -> fee <= g ->
     R (mkFrame pc (g - fee) stk mf (expand act off n) rt rf w) (mkCtx cpc (g - fee) rf stk store' cost' rt w) ->
     fst (slice_of off n) + snd (slice_of off n) <= zlen store' ->
     slice store' (fst (slice_of off n)) (snd (slice_of off n)) = read_bytes mf off n -> n <= 2 ^ 37 ->
     Q (k (slice_of off n) (mkCtx cpc (g - fee) rf stk store' cost' rt w))) ->
  (g < Gmem (expand act off n) - Gmem act -> forall c', Q (err c')) ->
  Q (getSlice off n (mkCtx cpc g rf stk store cost rt w) k).
Proof.
  intros hR hg hm ho hn h1 h2. apply (getSlice_ok Q (mkFrame pc g stk mf act rt rf w)); G; try assumption.
  intros [cpc' cg' crf' cstk' store' cost' crt' cw'] hpay [s1 s2 s3 s4 s5]. unfold mem_fee in *. G.
  pose proof (r_gas _ _ s1) as e1; pose proof (r_refund _ _ s1) as e2; pose proof (r_stack _ _ s1) as e3; pose proof (r_ret _ _ s1) as e4;
  pose proof (r_world _ _ s1) as e5. G. subst cpc' cg' crf' cstk' crt' cw'.
  apply h1; try assumption. apply fee_nonneg. pose proof (r_len _ _ hR) as e. G. rewrite <- e. apply zlen_nonneg.
Qed.

(** ** Plain stack operations *)
Lemma sim_binary qq q : (forall a b, is_word a -> is_word b -> qq a b = q a b /\ is_word (q a b)) -> sim 2 1 (bin q) (binary qq).
Proof.
  intros hg. start. pops. unfold bin, binary. G. acc. destruct (hg z z0) as [-> hq]; try assumption. fin.
Qed.
Lemma sim_unary qq q : (forall a, is_word a -> qq a = q a /\ is_word (q a)) -> sim 1 1 (un q) (unary qq).
Proof. intros hg. start. pops. unfold un, unary. G. acc. destruct (hg z) as [-> hq]; try assumption. fin. Qed.
Lemma sim_ternary qq q : (forall a b c, is_word a -> is_word b -> is_word c -> qq a b c = q a b c /\ is_word (q a b c)) -> sim 3 1 (tern q) (ternary qq).
Proof. intros hg. start. pops. unfold tern, ternary. G. acc. destruct (hg z z0 z1) as [-> hq]; try assumption. fin. Qed.
Lemma sim_push' v' v : (forall f c, R f c -> fine f -> v' c = v f /\ is_word (v f)) -> sim 0 1 (fun f => push (v f) f) (fun c => pushValue (v' c) c).
Proof. intros hv. start. destruct (hv _ _ hR hF) as [-> hq]. unfold push, pushValue. G. acc. fin. Qed.
Lemma sim_push v' v : v' = v -> is_word v -> sim 0 1 (push v) (pushValue v').
Proof. intros -> hv. apply (sim_push' (fun _ => v) (fun _ => v)). auto. Qed.
Lemma sim_pop : sim 1 0 (fun f => match f_stack f with _ :: s => yield s f | _ => bad f end) opPop.
Proof. start. pops. unfold opPop. acc. fin. Qed.

Lemma fine_g pc g stk mf act rt rf (w : W) : fine (mkFrame pc g stk mf act rt rf w) -> 0 <= g /\ g + Gmem act < 2 ^ 54 /\ Z.abs rf <= 199 * (2 ^ 54 - g).
Proof. intros [h1 h2 h3]. G. auto. Qed.
Lemma R_act pc g stk mf act rt rf (w : W) c : R (mkFrame pc g stk mf act rt rf w) c -> 0 <= act.
Proof. intros h. pose proof (r_len _ _ h) as e. G. rewrite <- e. apply zlen_nonneg. Qed.
Ltac facts := match goal with hR : R _ _, hF : fine _ |- _ => destruct (fine_g _ _ _ _ _ _ _ _ hF) as (hg & hgm & hrf); pose proof (R_act _ _ _ _ _ _ _ _ _ hR) as hact end.
Ltac paid := unfold charge; G; match goal with |- context [?a <? ?b] => destruct (Z.ltb_spec a b); [solve [lia | failed]|] end.
Ltac unpaid := intros; unfold charge; G; match goal with |- context [?a <? ?b] => destruct (Z.ltb_spec a b); [failed|exfalso; lia] end.
Ltac gas := G; apply gas_step; [lia|try lia| |].
Ltac mem := match goal with hR : R _ _ |- _ => apply (slice_step _ _ _ _ _ _ _ _ _ _ _ _ _ _ _ hR); [lia|lia|assumption || (unfold is_word; lia)|assumption || (unfold is_word; lia)| |] end.

(** sets of the stack survive for the words alone *)
Lemma R_restack pc g s s' mf act rt rf (w : W) cpc store cost : R (mkFrame pc g s mf act rt rf w) (mkCtx cpc g rf s store cost rt w) -> Forall is_word s' ->
  R (mkFrame pc g s' mf act rt rf w) (mkCtx cpc g rf s' store cost rt w).
Proof. intros [] ?. split; G; auto. Qed.
Lemma R_regas pc g g' s mf act rt rf (w : W) cpc store cost : R (mkFrame pc g s mf act rt rf w) (mkCtx cpc g rf s store cost rt w) ->
  R (mkFrame pc g' s mf act rt rf w) (mkCtx cpc g' rf s store cost rt w).
Proof. intros []. split; G; auto. Qed.
Ltac restack s' := match goal with hR : R (mkFrame ?pc ?g ?s ?mf ?act ?rt ?rf ?w) _ |- _ => apply (R_restack _ _ _ s') in hR; [|repeat (apply Forall_cons; [assumption|]); assumption] end.
Ltac regas g' := match goal with hR : R _ _ |- _ => apply (R_regas _ _ g') in hR end.

Lemma sim_exp : sim 2 1 i_exp opExp.
Proof.
  start. pops. facts. unfold i_exp, opExp. G. acc. change (count_sig z0) with (byte_count z0). pose proof (byte_count_range z0 ltac:(assumption)).
  gas.
  - intros hc. acc. paid. rewrite u_exp_spec by assumption. pose proof (to_word_range (z ^ z0)). fin.
  - unpaid.
Qed.
Lemma sim_sha3 : sim 2 1 (i_sha3 keccak) (opSha3 keccak).
Proof.
  start. pops. facts. unfold i_sha3, opSha3. G. acc. pose proof (words_nonneg z0 ltac:(unfold is_word in *; lia)).
  restack (z0 :: stk). mem.
  - intros store' cost' fee hf1 hf2 hR' hin hbytes hsmall. unfold bytesOf. G. rewrite hbytes. unfold is_word in *. rewrite word_cost by lia. gas.
    + intros hc. acc. unfold mem_fee. G. fold fee. paid. pose proof (Hkeccak (read_bytes mf z z0)). clear hR. fin.
    + unfold mem_fee. G. fold fee. unpaid.
  - unfold mem_fee. G. unpaid.
Qed.
Lemma sim_mload : sim 1 1 i_mload opMload.
Proof.
  start. pops. facts. unfold i_mload, opMload. G. acc. mem.
  - intros store' cost' fee hf1 hf2 hR' hin hbytes hsmall. unfold bytesOf. G. rewrite hbytes. acc. unfold mem_fee. G. fold fee. paid. clear hR.
    rewrite setBytes_be. assert (is_word (be (read_bytes mf z 32))).
    { apply be_word; [|rewrite read_bytes_zlen; lia]. apply read_bytes_byte. intros i hi. unfold is_word in *. pose proof (r_mem _ _ hR') as e. G. rewrite e by lia. apply data_at_byte. apply (r_bytes _ _ hR'). }
    fin.
  - unfold mem_fee. G. unpaid.
Qed.

Lemma copy_step pc g s mf act rt rf (w : W) cpc store cost off n src : R (mkFrame pc g s mf act rt rf w) (mkCtx cpc g rf s store cost rt w) ->
  Forall is_byte src -> 0 <= off -> 0 <= n -> fst (slice_of off n) + snd (slice_of off n) <= zlen store ->
  exists store', copyInto (slice_of off n) src (mkCtx cpc g rf s store cost rt w) = mkCtx cpc g rf s store' cost rt w /\
    zlen store' = zlen store /\
    R (mkFrame pc g s (write_bytes mf off (firstn (Z.to_nat n) src)) act rt rf w) (mkCtx cpc g rf s store' cost rt w).
Proof.
  intros hR hs ho hn hin. pose proof (copyInto_R _ _ off n src hR hs ho hn hin) as h. unfold copyInto in *. G. eexists. split; [reflexivity|]. split; [|exact h].
  pose proof (r_len _ _ h) as e. pose proof (r_len _ _ hR) as e'. G. congruence.
Qed.
Lemma firstn_full (n : Z) (l : list Z) : zlen l = n -> firstn (Z.to_nat n) l = l.
Proof. intros h. apply firstn_all2. unfold zlen in h. lia. Qed.
Ltac split_copy h := match goal with |- context [copyInto (slice_of ?off ?n) ?src (mkCtx ?cpc ?g ?rf ?s ?store ?cost ?rt ?w)] =>
  destruct (copy_step _ _ _ _ _ _ _ _ _ _ _ off n src h) as (store2 & e2 & el2 & hR2); [try assumption|unfold is_word in *; lia|unfold is_word in *; lia|assumption|rewrite e2] end.

Lemma mem_bytes pc g s mf act rt rf (w : W) c off n : R (mkFrame pc g s mf act rt rf w) c -> 0 <= off -> Forall is_byte (read_bytes mf off n).
Proof.
  intros h ho. apply read_bytes_byte. intros i hi. pose proof (r_mem _ _ h) as e. G. rewrite e by lia. apply data_at_byte. apply (r_bytes _ _ h).
Qed.

Lemma sim_mstore : sim 2 0 i_mstore opMstore.
Proof.
  start. pops. facts. unfold i_mstore, opMstore. G. acc. unfold memSet. rewrite bytes32_be.
  assert (e32 : zlen (be_bytes 32 z0) = 32) by (unfold zlen; rewrite be_bytes_length; reflexivity). rewrite e32. restack stk. mem.
  - intros store' cost' fee hf1 hf2 hR' hin hbytes hsmall. clear hR. split_copy hR'; [apply be_bytes_byte|]. rewrite firstn_full in hR2 by exact e32.
    unfold mem_fee. G. fold fee. paid. clear hR'. fin.
  - unfold mem_fee. G. unpaid.
Qed.
Lemma sim_mstore8 : sim 2 0 i_mstore8 opMstore8.
Proof.
  start. pops. facts. unfold i_mstore8, opMstore8. G. acc. unfold memSet. change (zlen [u64 z0 mod 256]) with 1. restack stk.
  assert (e8 : u64 z0 mod 256 = z0 mod 256).
  { unfold u64. symmetry. apply (Znumtheory.Zmod_div_mod 256 (2 ^ 64)); [lia|lia|exists (2 ^ 56); reflexivity]. }
  rewrite e8. mem.
  - intros store' cost' fee hf1 hf2 hR' hin hbytes hsmall. clear hR. split_copy hR'; [apply Forall_cons; [|constructor]; apply Z.mod_pos_bound; lia|].
    change (firstn (Z.to_nat 1) [z0 mod 256]) with [z0 mod 256] in hR2.
    unfold mem_fee. G. fold fee. paid. clear hR'. fin.
  - unfold mem_fee. G. unpaid.
Qed.
Lemma expand2 act o1 n1 o2 n2 : Gmem (expand (expand act o1 n1) o2 n2) - Gmem act = (Gmem (expand act o1 n1) - Gmem act) + (Gmem (expand (expand act o1 n1) o2 n2) - Gmem (expand act o1 n1)).
Proof. lia. Qed.
Lemma sim_mcopy : rev_ge rv Cancun = true -> sim 3 0 i_mcopy (opMcopy p).
Proof.
  intros hv. start. pops. facts. unfold i_mcopy, opMcopy. rewrite at_cancun, hv. G. cbn [negb]. acc. restack stk.
  pose proof (fee_nonneg (expand act z0 z1) z z1) as hfee2. pose proof (expand_ge act z0 z1). specialize (hfee2 ltac:(lia)).
  assert (hn1 : 0 <= z1) by (unfold is_word in *; lia). pose proof (words_nonneg z1 hn1) as hwn.
  mem.
  - intros store' cost' fee hf1 hf2 hR' hin hbytes hsmall. clear hR. unfold bytesOf. G. rewrite hbytes. unfold is_word in *. rewrite word_cost by lia. gas.
    + intros hc. unfold memSet. rewrite read_bytes_zlen, Z.max_r by lia. regas (g - fee - 3 * words z1). mem.
      * intros store2 cost2 fee2 hf3 hf4 hR3 hin3 hbytes3 _. clear hR'.
        match goal with |- context [copyInto _ ?src _] => destruct (copy_step _ _ _ _ _ _ _ _ _ _ _ z z1 src hR3) as (store3 & e3 & el3 & hR4) end;
          [apply (mem_bytes _ _ _ _ _ _ _ _ _ _ _ hR3); lia|lia|lia|assumption|]. rewrite e3.
        rewrite firstn_full in hR4 by (rewrite read_bytes_zlen; lia). unfold charge. G.
        match goal with |- context [?a <? ?b] => destruct (Z.ltb_spec a b) end; [unfold fee, fee2 in *; lia|]. clear hR3. unfold fee, fee2 in *. fin.
      * intros. unfold charge. G. unfold fee in *. match goal with |- context [?a <? ?b] => destruct (Z.ltb_spec a b) end; [failed|lia].
    + intros. unfold charge. G. unfold fee in *. match goal with |- context [?a <? ?b] => destruct (Z.ltb_spec a b) end; [failed|lia].
  - intros. unfold charge. G. match goal with |- context [?a <? ?b] => destruct (Z.ltb_spec a b) end; [failed|lia].
Qed.

Lemma sim_copy d : Forall is_byte d -> zlen d < 2 ^ 63 -> sim 3 0 (i_copy d) (genericDataCopy d).
Proof.
  intros hd hdl. start. pops. facts. unfold i_copy, genericDataCopy. G. acc. restack stk. unfold is_word in *.
  pose proof (words_nonneg z1 ltac:(lia)) as hwn. pose proof (fee_nonneg act z z1 hact) as hfee.
  pose proof (word_cost_nonneg 3 z1 ltac:(lia)) as hwc. gas.
  - intros hc. destruct (Z_lt_ge_dec z1 (2 ^ 64)) as [hs|hs].
    + rewrite word_cost in * by lia. regas (g - 3 * words z1). mem.
      * intros store' cost' fee hf1 hf2 hR' hin hbytes hsmall. clear hR. rewrite u64_small by lia. rewrite getData_spec by (unfold is_word; try assumption; lia).
        split_copy hR'; [apply data_bytes_byte; assumption|]. rewrite firstn_full in hR2 by (rewrite data_bytes_zlen; lia).
        unfold mem_fee. G. fold fee. paid. clear hR'. fin.
      * unfold mem_fee. G. unpaid.
    + pose proof (big_fee act z1 z g hact ltac:(lia) ltac:(lia) ltac:(lia)). unfold mem_fee. G. regas (g - s64 (u64 (3 * sizeInWords (u64 z1)))). mem.
      * intros store' cost' fee hf1 hf2. exfalso. unfold fee in *. lia.
      * unpaid.
  - intros hc. unfold mem_fee. G. destruct (Z_lt_ge_dec z1 (2 ^ 64)) as [hs|hs].
    + rewrite word_cost in * by lia. unpaid.
    + pose proof (big_fee act z1 z g hact ltac:(lia) ltac:(lia) ltac:(lia)). unpaid.
Qed.
Lemma sim_returndatacopy : sim 3 0 i_returndatacopy opReturnDataCopy.
Proof.
  start. pops. facts. unfold i_returndatacopy, opReturnDataCopy. G. acc. restack stk.
  pose proof (r_rlen _ _ hR) as hrl. pose proof (r_rbytes _ _ hR) as hrb. G. pose proof (zlen_nonneg rt) as hrn.
  unfold is_word in *. pose proof (words_nonneg z1 ltac:(lia)) as hwn. pose proof (fee_nonneg act z z1 hact) as hfee.
  unfold isUint64, mem_fee. G. destruct (Z.ltb_spec z0 (2 ^ 64)); cbn [negb orb].
  2:{ unfold charge. G. destruct (_ <? _); [failed|]. destruct (Z.ltb_spec (zlen rt) (z0 + z1)); [failed|lia]. }
  destruct (Z.ltb_spec z1 (2 ^ 64)); cbn [negb orb].
  2:{ unfold charge. G. destruct (_ <? _); [failed|]. destruct (Z.ltb_spec (zlen rt) (z0 + z1)); [failed|lia]. }
  rewrite word_cost by lia. gas.
  - intros hc. rewrite (u64_small z0), (u64_small z1) by lia. destruct (Z_lt_ge_dec (z0 + z1) (2 ^ 64)) as [hs|hs].
    + rewrite (u64_small (z0 + z1)) by lia. destruct (Z.ltb_spec (z0 + z1) z0); [lia|]. G. destruct (Z.ltb_spec (zlen rt) (z0 + z1)).
      { unfold charge. G. destruct (_ <? _); [failed|]. destruct (Z.ltb_spec (zlen rt) (z0 + z1)); [failed|lia]. }
      unfold memSet. replace (z0 + z1 - z0) with z1 by lia. rewrite slice_zlen by lia. regas (g - 3 * words z1). mem.
      * intros store' cost' fee hf1 hf2 hR' hin hbytes hsmall. clear hR. fold fee.
        match goal with |- context [copyInto _ ?src _] => replace src with (data_bytes rt z0 z1) end.
        2:{ rewrite data_bytes_read. symmetry. apply slice_read; lia. }
        split_copy hR'; [apply data_bytes_byte; assumption|]. rewrite firstn_full in hR2 by (rewrite data_bytes_zlen; lia).
        paid. destruct (Z.ltb_spec (zlen rt) (z0 + z1)); [lia|]. clear hR'. fin.
      * unpaid.
    + assert (E : u64 (z0 + z1) = z0 + z1 - 2 ^ 64).
      { unfold u64. rewrite <- (Z.mod_small (z0 + z1 - 2 ^ 64) (2 ^ 64)) by lia. rewrite <- (Z_mod_plus_full (z0 + z1) (-1) (2 ^ 64)). f_equal. }
      rewrite E. destruct (Z.ltb_spec (z0 + z1 - 2 ^ 64) z0); [|lia].
      unfold charge. G. destruct (_ <? _); [failed|]. destruct (Z.ltb_spec (zlen rt) (z0 + z1)); [failed|lia].
  - unpaid.
Qed.
Lemma sim_calldataload : sim 1 1 (i_calldataload msg) (opCallDataload p).
Proof.
  apply sim_unary. intros a ha. change (msg_input msg) with (p_input p). pose proof (mok_input _ Hmsg) as h1. pose proof (mok_input_len _ Hmsg) as h2. cbn in h1, h2.
  rewrite getData_spec by (try assumption; lia). rewrite setBytes_be. split; [reflexivity|]. apply be_word; [apply data_bytes_byte; assumption|rewrite data_bytes_zlen; lia].
Qed.
Lemma sim_return h s : (h = Returned /\ s = StReturned) \/ (h = Reverted /\ s = StReverted) -> sim 2 0 (i_return h) (opEndWithResult s).
Proof.
  intros hs. start. pops. facts. unfold i_return, opEndWithResult. G. acc. restack stk. mem.
  - intros store' cost' fee hf1 hf2 hR' hin hbytes hsmall. clear hR. unfold bytesOf. G. rewrite hbytes. unfold mem_fee. G. fold fee. paid.
    eexists _, _. split; [reflexivity|]. G. split; [|repeat split]. destruct hs as [[-> ->]|[-> ->]]; split; reflexivity.
  - unfold mem_fee. G. unpaid.
Qed.

(** ** Storage, accounts, environment *)
Lemma s64_refund rf g d : 0 <= g -> Z.abs rf <= 199 * (2 ^ 54 - g) -> Z.abs d <= 2 ^ 62 -> s64 (rf + d) = rf + d.
Proof. intros. apply s64_id. lia. Qed.
Definition price_of (istanbul : Z) : Z := if rev_ge rv Berlin then 0 else istanbul.
Ltac H' := cbn [go_host h_get_storage h_get_transient h_get_balance h_get_code_size h_get_code_hash h_copy_code h_tx_context h_block_hash h_access_account h_access_storage
  h_set_storage h_set_transient h_selfdestruct h_emit_log h_account_exists] in *.

(** the form with the static price still to be paid, where the two tables differ *)
Definition simf (a r price : Z) (ex : frame -> outcome W) (op : ctx -> res oc) : Prop :=
  forall (P : Z -> Z -> Prop) f c, R f c -> fine f -> a <= zlen (f_stack f) -> zlen (f_stack f) - a + r <= 1024 ->
  P (f_pc f + 1) (c_pc c) -> out_ok P (ex f) (useGas (price_of price) c op).
Lemma free_price pc g s mf act rt rf (w : W) cpc store cost k : R (mkFrame pc g s mf act rt rf w) (mkCtx cpc g rf s store cost rt w) -> 0 <= g ->
  useGas 0 (mkCtx cpc g rf s store cost rt w) k = k (mkCtx cpc g rf s store cost rt w).
Proof. intros _ hg. unfold useGas. G. destruct (Z.ltb_spec g 0); [lia|]. cbn. rewrite Z.sub_0_r. reflexivity. Qed.
Lemma free_price' cpc g rf s store cost rt (w : W) k : 0 <= g -> useGas 0 (mkCtx cpc g rf s store cost rt w) k = k (mkCtx cpc g rf s store cost rt w).
Proof. intros hg. unfold useGas. G. destruct (Z.ltb_spec g 0); [lia|]. cbn. rewrite Z.sub_0_r. reflexivity. Qed.

Lemma sim_sload : simf 1 1 800 (i_sload H msg rv) (opSload rc p).
Proof.
  start. pops. facts. unfold i_sload, slot_cost, opSload, price_of. rewrite at_berlin. G. change (self msg) with (p_recipient p).
  destruct (rev_ge rv Berlin).
  - rewrite (free_price _ _ _ _ _ _ _ _ _ _ _ _ hR hg). acc. H'. G. destruct (rc_access_storage rc w (p_recipient p) z) as [st w1].
    set (fee := match st with COLD => 2100 | WARM => 100 end). assert (hfee : 100 <= fee <= 2100) by (unfold fee; destruct st; lia).
    gas.
    + intros hc. acc. G. paid. pose proof (hok_get_storage _ Hhost w1 (p_recipient p) z) as hw2. H'. fin.
    + unpaid.
  - gas.
    + intros hc. acc. G. paid. H'. pose proof (hok_get_storage _ Hhost w (p_recipient p) z) as hw2. H'. fin.
    + unpaid.
Qed.
Hypothesis Hsst : forall w a k v w1 st w2, rc_access_storage rc w a k = (COLD, w1) -> rc_set_storage rc w1 a k v = (st, w2) ->
  st <> S_DELETED_RESTORED /\ st <> S_MODIFIED_RESTORED.
Lemma sstore_costs (cold : bool) st : isAtLeast p 1 = rev_ge rv Berlin ->
  (if rev_ge rv Berlin then if cold then 2100 else 0 else 0) + getDynamicCostsForSstore (p_revision p) st = sstore_cost rv cold st.
Proof.
  intros _. unfold getDynamicCostsForSstore, sstore_cost. destruct rev_cases as [[-> ->]|[[-> ->]|[[-> ->]|[[-> ->]|[[-> ->]|[-> ->]]]]]]; destruct cold, st; reflexivity.
Qed.
Lemma sstore_refunds (cold : bool) st : (rev_ge rv Berlin = true -> cold = true -> st <> S_DELETED_RESTORED /\ st <> S_MODIFIED_RESTORED) ->
  getRefundForSstore (p_revision p) st = sstore_refund rv cold st.
Proof.
  unfold getRefundForSstore, sstore_refund, clear_refund, restore_refund. destruct rev_cases as [[-> ->]|[[-> ->]|[[-> ->]|[[-> ->]|[[-> ->]|[-> ->]]]]]]; destruct cold, st; intros h; try reflexivity;
  destruct (h eq_refl eq_refl); congruence.
Qed.
Lemma sim_sstore : p_static p = false -> sim 2 0 (i_sstore H msg rv) (opSstore rc p).
Proof.
  intros hstat. start. pops. facts. unfold i_sstore, opSstore. rewrite hstat, at_berlin. G. change (self msg) with (p_recipient p).
  destruct (g <=? 2300); [failed|]. acc. H'. G.
  assert (hgo : forall cold w1 st w2, rc_set_storage rc w1 (p_recipient p) z z0 = (st, w2) -> (rev_ge rv Berlin = true -> cold = true -> st <> S_DELETED_RESTORED /\ st <> S_MODIFIED_RESTORED) ->
    out_ok P (charge (sstore_cost rv cold st) (mkFrame pc g (z :: z0 :: stk) mf act rt rf w2) (fun f2 => yield stk (add_refund (sstore_refund rv cold st) f2)))
      (useGas ((if rev_ge rv Berlin then if cold then 2100 else 0 else 0) + getDynamicCostsForSstore (p_revision p) st) (mkCtx cpc g rf stk store cost rt w2)
         (fun c => ok (set_refund (s64 (c_refund c + getRefundForSstore (p_revision p) st)) c)))).
  { intros cold w1 st w2 e hno. rewrite sstore_costs by apply at_berlin. rewrite (sstore_refunds cold st hno). pose proof (sstore_cost_lo rv cold st). gas.
    - intros hc. paid. assert (er : s64 (rf + sstore_refund rv cold st) = rf + sstore_refund rv cold st).
      { apply (s64_refund rf g); try lia. pose proof (sstore_refund_hi rv cold st). pose proof (Gmem_nonneg act hact). lia. }
      rewrite er. fin.
    - unpaid. }
  destruct (rev_ge rv Berlin) eqn:eB.
  - destruct (rc_access_storage rc w (p_recipient p) z) as [ast w1] eqn:ea. destruct (rc_set_storage rc w1 (p_recipient p) z z0) as [st w2] eqn:es. G. H'. rewrite es.
    specialize (hgo (match ast with COLD => true | WARM => false end) w1 st w2 es). destruct ast; apply hgo; intros; try discriminate. eapply Hsst; eassumption.
  - G. destruct (rc_set_storage rc w (p_recipient p) z z0) as [st w2] eqn:es. specialize (hgo true w st w2 es). apply hgo. intros h; discriminate.
Qed.
Lemma sim_tload : rev_ge rv Cancun = true -> sim 1 1 (i_tload H msg) (opTload rc p).
Proof.
  intros hv. start. pops. unfold i_tload, opTload, un, unary. rewrite at_cancun, hv. G. cbn [negb]. acc. H'.
  pose proof (hok_get_transient _ Hhost w (p_recipient p) z) as hw2. H'. change (self msg) with (p_recipient p). fin.
Qed.
Lemma sim_tstore : rev_ge rv Cancun = true -> p_static p = false -> sim 2 0 (i_tstore H msg) (opTstore rc p).
Proof.
  intros hv hstat. start. pops. unfold i_tstore, opTstore. rewrite at_cancun, hv, hstat. G. cbn [negb]. acc. H'. change (self msg) with (p_recipient p). fin.
Qed.

Lemma sim_account q' q : (forall w a, q' w a = q w a /\ is_word (q w a)) -> simf 1 1 700 (i_account H rv q) (accountQuery rc p q').
Proof.
  intros hq. start. pops. facts. unfold i_account, account_cost, accountQuery, accessAccount, price_of. rewrite at_berlin. G. change (addr_of z) with (bytes20 z).
  destruct (rev_ge rv Berlin).
  - rewrite (free_price _ _ _ _ _ _ _ _ _ _ _ _ hR hg). acc. H'. G. destruct (rc_access_account rc w (bytes20 z)) as [st w1].
    change (match st with COLD => 2600 | WARM => 100 end) with (getAccessCost st). assert (hfee : 100 <= getAccessCost st <= 2600) by (destruct st; cbn; lia).
    gas.
    + intros hc. acc. G. paid. destruct (hq w1 (bytes20 z)) as [-> hw2]. fin.
    + unpaid.
  - gas.
    + intros hc. acc. G. paid. destruct (hq w (bytes20 z)) as [-> hw2]. fin.
    + unpaid.
Qed.
Hypothesis Hcodes : forall w a, zlen (rc_code rc w a) < 2 ^ 63.
Lemma code_bytes w a : Forall is_byte (rc_code rc w a).
Proof.
  pose proof (proj2 (hok_copy_code _ Hhost w a 0 (zlen (rc_code rc w a)) (zlen_nonneg _))) as h. H'. change (skipn (Z.to_nat 0) (rc_code rc w a)) with (rc_code rc w a) in h.
  rewrite firstn_full in h by reflexivity. exact h.
Qed.
Lemma copied_code w a coff n : is_word coff -> 0 <= n < 2 ^ 63 ->
  data_bytes (if (coff <? 2 ^ 64) && (0 <? n) then firstn (Z.to_nat n) (skipn (Z.to_nat coff) (rc_code rc w a)) else []) 0 n = data_bytes (rc_code rc w a) coff n.
Proof.
  intros hc hn. unfold is_word in hc. pose proof (Hcodes w a) as hl. rewrite !data_bytes_read. apply list_data_ext; [rewrite !read_bytes_zlen; reflexivity|].
  intros i hi. rewrite read_bytes_zlen in hi. rewrite !read_bytes_at by lia. rewrite Z.add_0_l. destruct (Z.ltb_spec 0 n); [|lia]. rewrite andb_true_r.
  destruct (Z.ltb_spec coff (2 ^ 64)).
  - rewrite data_at_firstn by lia. destruct (Z.ltb_spec i n); [|lia]. rewrite data_at_skipn by lia. reflexivity.
  - rewrite (data_at_out (rc_code rc w a)) by lia. apply data_at_out. rewrite zlen_nil. lia.
Qed.
Lemma genericDataCopy_eq source a b n s cpc g rf st co rt (w : W) : genericDataCopy source (mkCtx cpc g rf (a :: b :: n :: s) st co rt w) =
  useGas (s64 (u64 (3 * sizeInWords (u64 n)))) (mkCtx cpc g rf s st co rt w) (fun c =>
  getSlice a n c (fun sl c => ok (copyInto sl (getData source b (u64 n)) c))).
Proof. reflexivity. Qed.
(** the copy, when the fee of the access has been paid (up to the stack of the frame) *)
Lemma extcopy_tail (P : Z -> Z -> Prop) pc g stk mf act rt rf w cpc store cost addr moff coff n src : R (mkFrame pc g stk mf act rt rf w) (mkCtx cpc g rf stk store cost rt w) ->
  0 <= g -> g + Gmem act < 2 ^ 54 -> is_word moff -> is_word coff -> is_word n -> src = rc_code rc w addr -> P (pc + 1) cpc ->
  let fee := Gmem (expand act moff n) - Gmem act in
  let r := genericDataCopy src (mkCtx cpc g rf (moff :: coff :: n :: stk) store cost rt w) in
  (g < fee + 3 * words n -> forall e (f0 : frame), out_ok P (Fail e f0) r) /\
  (fee + 3 * words n <= g ->
     out_ok P (Next (mkFrame (pc + 1) (g - fee - 3 * words n) stk (write_bytes mf moff (data_bytes (if (coff <? 2 ^ 64) && (0 <? n) then h_copy_code H w addr coff n else []) 0 n)) (expand act moff n) rt rf w)) r).
Proof.
  intros hR hg hgm hm hc hn -> hP fee r. unfold r. clear r. rewrite genericDataCopy_eq. pose proof (R_act _ _ _ _ _ _ _ _ _ hR) as hact. unfold is_word in *.
  pose proof (words_nonneg n ltac:(lia)) as hwn. pose proof (fee_nonneg act moff n hact) as hfee. fold fee in hfee.
  pose proof (word_cost_nonneg 3 n ltac:(lia)) as hwc.
  destruct (Z_lt_ge_dec n (2 ^ 64)) as [hs|hs].
  2:{ pose proof (big_fee act n moff g hact ltac:(lia) ltac:(lia) ltac:(lia)) as hbig. fold fee in hbig. split; [intros _ e f0|intros; lia].
      gas; [intros hc'|intros; failed]. regas (g - s64 (u64 (3 * sizeInWords (u64 n)))). mem; [|intros; failed].
      intros store' cost' fee' hf1 hf2. exfalso. unfold fee', fee in *. lia. }
  rewrite word_cost in * by lia. split; [intros hcase e f0|intros hcase].
  - gas; [intros hc'|intros; failed]. regas (g - 3 * words n). mem; [|intros; failed]. intros store' cost' fee' hf1 hf2. exfalso. unfold fee', fee in *. lia.
  - gas; [intros hc'|intros; exfalso; lia]. regas (g - 3 * words n). mem; [|intros hf; fold fee in hf; exfalso; lia].
    intros store' cost' fee' hf1 hf2 hR' hin hbytes hsmall. rewrite u64_small by lia. rewrite getData_spec by (unfold is_word; try apply code_bytes; try apply Hcodes; lia).
    H'. rewrite copied_code by (unfold is_word; lia).
    split_copy hR'; [apply data_bytes_byte; apply code_bytes|]. rewrite firstn_full in hR2 by (rewrite data_bytes_zlen; lia).
    change fee' with fee in *. clear hR hR'. fin.
Qed.
Lemma sim_extcodecopy : simf 4 0 700 (i_extcodecopy H rv) (opExtCodeCopy rc p).
Proof.
  start. pops. facts. unfold i_extcodecopy, account_cost, opExtCodeCopy, accessAccount, price_of. rewrite at_berlin. G. change (addr_of z) with (bytes20 z).
  restack stk. pose proof (fee_nonneg act z0 z2 hact) as hfee. pose proof (words_nonneg z2 ltac:(unfold is_word in *; lia)) as hwn.
  destruct (rev_ge rv Berlin).
  - rewrite free_price' by exact hg.
    acc. H'. G. unfold charge. G. unfold mem_fee. G. set (fee := Gmem (expand act z0 z2) - Gmem act) in *.
    destruct (rc_access_account rc w (bytes20 z)) as [st w1]. change (match st with COLD => 2600 | WARM => 100 end) with (getAccessCost st).
    assert (hac : 100 <= getAccessCost st <= 2600) by (destruct st; cbn; lia).
    assert (hR1 : R (mkFrame pc (g - getAccessCost st) stk mf act rt rf w1) (mkCtx cpc (g - getAccessCost st) rf stk store cost rt w1)) by (destruct hR; split; G; auto).
    gas.
    + intros hc. G. destruct (extcopy_tail P pc _ stk mf act rt rf w1 cpc store cost (bytes20 z) z0 z1 z2 _ hR1 ltac:(lia) ltac:(lia) ltac:(assumption) ltac:(assumption) ltac:(assumption) eq_refl hP) as [h1 h2].
      fold fee in h1, h2. destruct (Z.ltb_spec g fee). { apply h1. lia. }
      G. destruct (Z.ltb_spec (g - fee) (3 * words z2 + getAccessCost st)). { apply h1. lia. }
      H'. G. destruct (h2 ltac:(lia)) as (c & -> & hr & hp). clear hR hR1. fin.
    + intros. destruct (Z.ltb_spec g fee); [failed|]. G. destruct (Z.ltb_spec (g - fee) (3 * words z2 + getAccessCost st)); [failed|lia].
  - unfold charge. G. unfold mem_fee. G. set (fee := Gmem (expand act z0 z2) - Gmem act) in *.
    assert (hR1 : R (mkFrame pc (g - 700) stk mf act rt rf w) (mkCtx cpc (g - 700) rf stk store cost rt w)) by (destruct hR; split; G; auto).
    gas.
    + intros hc. acc. G. destruct (extcopy_tail P pc _ stk mf act rt rf w cpc store cost (bytes20 z) z0 z1 z2 _ hR1 ltac:(lia) ltac:(lia) ltac:(assumption) ltac:(assumption) ltac:(assumption) eq_refl hP) as [h1 h2].
      fold fee in h1, h2. destruct (Z.ltb_spec g fee). { apply h1. lia. }
      G. destruct (Z.ltb_spec (g - fee) (3 * words z2 + 700)). { apply h1. lia. }
      H'. G. destruct (h2 ltac:(lia)) as (c & -> & hr & hp). clear hR hR1. fin.
    + intros. destruct (Z.ltb_spec g fee); [failed|]. G. destruct (Z.ltb_spec (g - fee) (3 * words z2 + 700)); [failed|lia].
Qed.

Lemma popTopics_eq n : forall s ts cpc g rf st co rt (w : W) k, (n <= length s)%nat ->
  popTopics n ts (mkCtx cpc g rf s st co rt w) k = k (ts ++ firstn n s) (mkCtx cpc g rf (skipn n s) st co rt w).
Proof.
  induction n as [|n IH]; intros s ts cpc g rf st co rt w k h; [cbn; rewrite app_nil_r; reflexivity|].
  destruct s as [|a s]; [cbn in h; lia|]. cbn [popTopics firstn skipn]. rewrite spop_eq. rewrite IH by (cbn in h; lia). rewrite <- app_assoc. reflexivity.
Qed.
Lemma sim_log n : (n <= 4)%nat -> p_static p = false -> sim (Z.of_nat n + 2) 0 (i_log H msg (Z.of_nat n)) (opLog rc p n).
Proof.
  intros hn hstat. start. assert (ha2 : 2 <= zlen stk) by lia. assert (hn2 : Z.of_nat n + 2 <= zlen stk) by lia. clear ha. pops. facts. rewrite ?zlen_cons in hn2.
  unfold i_log, opLog. rewrite hstat. G. acc. rewrite Nat2Z.id. rewrite popTopics_eq by (unfold zlen in hn2; lia). rewrite app_nil_l.
  assert (hsk : Forall is_word (skipn n stk)) by (apply Forall_skipn'; assumption).
  match goal with h : R _ _ |- _ => apply (R_restack _ _ _ (skipn n stk)) in h; [|assumption] end. change (self msg) with (p_recipient p).
  unfold is_word in *. pose proof (fee_nonneg act z z0 hact) as hfee. unfold mem_fee. G. mem.
  - intros store' cost' fee hf1 hf2 hR' hin hbytes hsmall. clear hR. fold fee. rewrite (u64_small z0) by lia. rewrite (u64_small (8 * z0)) by lia. rewrite s64_small by lia. gas.
    + intros hc. unfold bytesOf. G. rewrite hbytes. paid. H'. fin.
    + unpaid.
  - unpaid.
Qed.
Lemma znth_nth {A} (l : list A) i : 0 <= i -> znth l i = nth_error l (Z.to_nat i).
Proof. intros. unfold znth. destruct (Z.ltb_spec i 0); [lia|reflexivity]. Qed.
Lemma sim_dup n : 1 <= n <= 16 -> sim n (n + 1) (i_dup n) (opDup n).
Proof.
  intros hn. start. unfold i_dup, opDup, sdup, speek. G. rewrite znth_nth by lia.
  destruct (nth_error stk (Z.to_nat (n - 1))) as [v|] eqn:e.
  - assert (hv : is_word v) by (eapply Forall_forall; [exact hws|eapply nth_error_In; exact e]). acc. unfold push. fin.
  - apply nth_error_None in e. unfold zlen in ha. lia.
Qed.
Lemma upd_split {A} (s : list A) k x : (k < length s)%nat -> list_upd s k x = firstn k s ++ x :: skipn (S k) s.
Proof.
  revert k. induction s as [|y s IH]; intros k h; [cbn in h; lia|]. destruct k; [reflexivity|]. cbn [list_upd firstn skipn app]. rewrite IH by (cbn in h; lia). reflexivity.
Qed.
Lemma sim_swap n : 1 <= n <= 16 -> sim (n + 1) (n + 1) (i_swap n) (opSwap n).
Proof.
  intros hn. start. destruct stk as [|a s]; [rewrite zlen_nil in ha; lia|]. rewrite zlen_cons in *. unfold i_swap, opSwap, sswap, speek. G. rewrite znth_nth by lia.
  replace (Z.to_nat n) with (S (Z.to_nat (n - 1))) at 1 by lia. cbn [nth_error].
  destruct (nth_error s (Z.to_nat (n - 1))) as [v|] eqn:e.
  2:{ apply nth_error_None in e. unfold zlen in ha. lia. }
  rewrite znth_nth by lia. cbn [Z.to_nat nth_error]. unfold sset at 1. G. rewrite zlen_cons.
  destruct (Z.leb_spec 0 n); [|lia]. destruct (Z.ltb_spec n (zlen s + 1)); [|lia]. cbn [andb].
  replace (Z.to_nat n) with (S (Z.to_nat (n - 1))) by lia. cbn [list_upd]. rewrite sset0_eq. rewrite upd_split by (unfold zlen in ha; lia).
  pose proof (Forall_inv hws) as hwa. apply Forall_inv_tail in hws. assert (hv : is_word v) by (eapply Forall_forall; [exact hws|eapply nth_error_In; exact e]).
  assert (Forall is_word (v :: firstn (Z.to_nat (n - 1)) s ++ a :: skipn (S (Z.to_nat (n - 1))) s)).
  { apply Forall_cons; [exact hv|]. apply Forall_app. split; [apply Forall_firstn'; exact hws|]. apply Forall_cons; [exact hwa|apply Forall_skipn'; exact hws]. }
  fin.
Qed.
Hypothesis Hacc : forall w a st w1, rc_access_account rc w a = (st, w1) -> forall b, is_empty rc w1 b = is_empty rc w b /\ rc_balance rc w1 b = rc_balance rc w b.
Lemma balance_test w a : (0 <? rc_balance rc w a) = negb (rc_balance rc w a =? 0).
Proof. pose proof (hok_get_balance _ Hhost w a) as h. H'. unfold is_word in h. destruct (Z.ltb_spec 0 (rc_balance rc w a)), (Z.eqb_spec (rc_balance rc w a) 0); try lia; reflexivity. Qed.
Lemma sim_selfdestruct : p_static p = false -> sim 1 0 (i_selfdestruct H msg rv) (opSelfdestruct rc p).
Proof.
  intros hstat. start. pops. facts. unfold i_selfdestruct, opSelfdestruct, isEmpty. rewrite hstat, at_berlin. G. acc. change (addr_of z) with (bytes20 z). H'. G. change (self msg) with (p_recipient p).
  rewrite negb_involutive, balance_test.
  assert (hgo : forall cost1 w1, 0 <= cost1 -> is_empty rc w1 (bytes20 z) = is_empty rc w (bytes20 z) -> rc_balance rc w1 (p_recipient p) = rc_balance rc w (p_recipient p) ->
    out_ok P (charge ((if negb (rc_balance rc w (p_recipient p) =? 0) && is_empty rc w (bytes20 z) then 25000 else 0) + cost1) (mkFrame pc g (z :: stk) mf act rt rf w1) (fun f2 =>
      let '(first, w) := rc_selfdestruct rc (f_world f2) (p_recipient p) (bytes20 z) in
      let f3 := with_world w f2 in
      let f4 := if first && negb (rev_ge rv London) then add_refund 24000 f3 else f3 in
      Halt Stopped [] (with_pc (pc + 1) (with_stack stk f4))))
    (useGas (cost1 + (if is_empty rc w1 (bytes20 z) && negb (rc_balance rc w1 (p_recipient p) =? 0) then 25000 else 0)) (mkCtx cpc g rf stk store cost rt w1) (fun c =>
      let '(destructed, w) := rc_selfdestruct rc (c_world c) (p_recipient p) (bytes20 z) in
      let c := set_world w c in
      Ok (Ends StSelfDestructed (set_refund (s64 (c_refund c + (if destructed && (p_revision p <? 2) then 24000 else 0))) c))))).
  { intros cost1 w1 hc1 -> ->. rewrite andb_comm. set (extra := if _ && _ then 25000 else 0). assert (0 <= extra) by (unfold extra; destruct (_ && _); lia). gas.
    - intros hc. paid. cbv beta. G. destruct (rc_selfdestruct rc w1 (p_recipient p) (bytes20 z)) as [d w2]. cbv zeta. G.
      assert (eL : (p_revision p <? 2) = negb (rev_ge rv London)).
      { rewrite <- at_london. unfold isAtLeast. destruct (Z.ltb_spec (p_revision p) 2), (Z.leb_spec 2 (p_revision p)); try lia; reflexivity. }
      rewrite eL. set (d24 := if d && negb (rev_ge rv London) then 24000 else 0). assert (h24 : 0 <= d24 <= 24000) by (unfold d24; destruct (d && negb (rev_ge rv London)); lia).
      rewrite (s64_refund rf g d24 hg hrf) by lia. unfold d24.
      destruct (d && negb (rev_ge rv London)); eexists _, _; (split; [reflexivity|]); G; (split; [split; [right; reflexivity|reflexivity]|]); repeat split; lia.
    - unpaid. }
  destruct (rev_ge rv Berlin).
  - destruct (rc_access_account rc w (bytes20 z)) as [st w1] eqn:ea. G.
    destruct (Hacc _ _ _ _ ea (bytes20 z)) as [e1 _]. destruct (Hacc _ _ _ _ ea (p_recipient p)) as [_ e2].
    specialize (hgo (match st with WARM => 0 | COLD => 2600 end) w1). destruct st; cbn [getAccessCost]; apply hgo; auto; lia.
  - G. apply (hgo 0 w); auto. lia.
Qed.
Lemma sim_blockhash : sim 1 1 (i_blockhash H) (opBlockhash rc tx).
Proof.
  start. pops. unfold i_blockhash, un, opBlockhash, unary. G. acc. H'. destruct (hok_tx _ Hhost w) as [_ _ _ hnum _ _ _ _ _ _ _ _]. H'.
  pose proof (hok_block_hash _ Hhost w z) as hbh. H'. unfold is_word in *. rewrite (u64_small (tx_number tx)) by lia. unfold isUint64.
  assert (E : (if negb (z <? 2 ^ 64) || (tx_number tx <=? u64 z) then 0 else
     if u64 z <? tx_number tx - (if tx_number tx <? 256 then tx_number tx else 256) then 0 else setBytes (bytes32 (rc_block_hash rc w (s64 (u64 z))))) =
     (if (tx_number tx - 256 <=? z) && (z <? tx_number tx) then rc_block_hash rc w z else 0)).
  { destruct (Z.ltb_spec z (2 ^ 64)); cbn [negb orb].
    2:{ destruct (Z.ltb_spec z (tx_number tx)); [lia|]. rewrite andb_false_r. reflexivity. }
    rewrite (u64_small z) by lia. destruct (Z.leb_spec (tx_number tx) z).
    { destruct (Z.ltb_spec z (tx_number tx)); [lia|]. rewrite andb_false_r. reflexivity. }
    destruct (Z.ltb_spec z (tx_number tx)); [|lia]. rewrite andb_true_r.
    destruct (Z.ltb_spec (tx_number tx) 256).
    - destruct (Z.ltb_spec z (tx_number tx - tx_number tx)); [lia|]. destruct (Z.leb_spec (tx_number tx - 256) z); [|lia].
      rewrite s64_small by lia. rewrite setBytes_be, bytes32_be, be_be_bytes. apply Z.mod_small. cbn. lia.
    - destruct (Z.ltb_spec z (tx_number tx - 256)), (Z.leb_spec (tx_number tx - 256) z); try lia.
      rewrite s64_small by lia. rewrite setBytes_be, bytes32_be, be_be_bytes. apply Z.mod_small. cbn. lia. }
  rewrite E. assert (is_word (if (tx_number tx - 256 <=? z) && (z <? tx_number tx) then rc_block_hash rc w z else 0)) by (destruct (_ && _); unfold is_word; lia).
  fin.
Qed.
Lemma sim_blobhash : sim 1 1 (i_blobhash H) (opBlobHash tx).
Proof.
  start. pops. unfold i_blobhash, un, opBlobHash. G. acc. H'. destruct (hok_tx _ Hhost w) as [_ _ _ _ _ _ _ _ _ _ hbw hbc]. H'.
  pose proof (zlen_nonneg (tx_blob_hashes tx)). unfold is_word in *. rewrite (u64_small (zlen (tx_blob_hashes tx))) by lia. unfold isUint64, pushValue.
  destruct (Z.ltb_spec z (2 ^ 64)); cbn [andb].
  - rewrite u64_small by lia. destruct (Z.ltb_spec z (zlen (tx_blob_hashes tx))).
    + rewrite znth_nth by lia. destruct (nth_error (tx_blob_hashes tx) (Z.to_nat z)) as [v|] eqn:e.
      * rewrite (nth_error_nth _ _ 0 e). assert (is_word v) by (eapply Forall_forall; [exact hbw|eapply nth_error_In; exact e]). acc. fin.
      * apply nth_error_None in e. unfold zlen in *. lia.
    + acc. assert (is_word 0) by (unfold is_word; lia). fin.
  - destruct (Z.ltb_spec z (zlen (tx_blob_hashes tx))); [lia|]. acc. assert (is_word 0) by (unfold is_word; lia). fin.
Qed.

(** ** Calls and creations *)
(** the nested call as the reference sees it: evmc_interpreter.go's translation of the message *)
Definition callF (w : W) (m : message) : cresult * W := let '(r, w') := Call w (go_kind_of m) (call_params_of m) in (cresult_of r, w').
Hypothesis Hcalls : calls_ok callF (p_depth p).
Hypothesis Hdepth : p_depth p <= 1024.

Lemma slice_mem pc g s mf act rt rf (w : W) cpc store cost off n : R (mkFrame pc g s mf act rt rf w) (mkCtx cpc g rf s store cost rt w) ->
  0 <= off -> 0 <= n -> fst (slice_of off n) + snd (slice_of off n) <= zlen store ->
  slice store (fst (slice_of off n)) (snd (slice_of off n)) = read_bytes mf off n.
Proof.
  intros hR ho hn hin. unfold slice_of in *. destruct (Z.eqb_spec n 0) as [->|hz]; [reflexivity|]. cbn [fst snd] in *.
  rewrite slice_read by lia. apply read_bytes_ext; [lia|]. intros i hi. symmetry. apply (r_mem _ _ hR). exact hi.
Qed.

Definition create_go (two : bool) (f : frame) (value off n salt : Z) (s : list Z) : outcome W :=
  answer callF (
    if 1024 <? msg_depth msg then Now (Fail CreateDepth f)
    else
    q_charge (mem_fee f off n) f (fun f1 =>
    if rev_ge rv Shanghai && (49152 <? n) then Now (Fail InitCodeTooLarge f)
    else
    q_charge ((if rev_ge rv Shanghai then 2 * words n else 0) + (if two then 6 * words n else 0)) f1 (fun f2 =>
    let f3 := touch off n (with_ret [] f2) in
    if h_get_balance H (f_world f3) (self msg) <? value then Now (yield (0 :: s) f3)
    else
      let g := all_but_64th (f_gas f3) in
      let m := mkMsg (if two then K_CREATE2 else K_CREATE) 0 (msg_depth msg + 1) g 0 (self msg)
                     (read_bytes (f_mem f3) off n) value salt 0 None in
      Ask (f_world f3) m (fun r w =>
      let f4 := with_world w (add_refund (cr_gas_refund r)
                  (with_gas (f_gas f3 - g + cr_gas_left r) f3)) in
      match cr_status r with
      | EVMC_SUCCESS => yield (cr_create_address r :: s) f4
      | EVMC_REVERT => yield (0 :: s) (with_ret (cr_output r) f4)
      | _ => yield (0 :: s) f4
      end)))).
Lemma create_go_eq1 f v off n s : f_stack f = v :: off :: n :: s -> i_create H callF msg rv false f = create_go false f v off n 0 s.
Proof. intros e. unfold i_create, q_create. rewrite e. reflexivity. Qed.
Lemma create_go_eq2 f v off n salt s : f_stack f = v :: off :: n :: salt :: s -> i_create H callF msg rv true f = create_go true f v off n salt s.
Proof. intros e. unfold i_create, q_create. rewrite e. reflexivity. Qed.

Definition l_create (two : bool) (value offset size salt : Z) (c : ctx) : res oc :=
    getSlice offset size c (fun s c =>
    let input := bytesOf s c in
    let afterSize (c : ctx) :=
      let afterHash (c : ctx) :=
        if negb (value =? 0) && (rc_balance rc (c_world c) (p_recipient p) <? value)
        then spush 0 (set_ret [] c) ok
        else
          let nestedCallGas := c_gas c - c_gas c / 64 in
          let '(r, w) := Call (c_world c) (if two then GoCreate2 else GoCreate)
                           (mkCallParams (p_recipient p) 0 value input nestedCallGas salt 0) in
          let c := set_world w c in
          let success := match r with Some r => gr_success r | None => false end in
          spush (match r with Some r => if gr_success r then gr_created r else 0 | None => 0 end) c (fun c =>
          let c := set_ret (match r with Some r => if gr_success r then [] else gr_output r | None => [] end) c in
          let c := set_gas (s64 (c_gas c - nestedCallGas + match r with Some r => gr_gas_left r | None => 0 end)) c in
          ok (set_refund (s64 (c_refund c + match r with Some r => gr_gas_refund r | None => 0 end)) c)) in
      if two then useGas (s64 (u64 (6 * sizeInWords (u64 size)))) c afterHash else afterHash c in
    if isAtLeast p 4 then
      match computeCodeSizeCost (u64 size) with
      | None => err c
      | Some cost => useGas cost c afterSize
      end
    else afterSize c).
Lemma l_create_eq1 v off n s cpc g rf st co rt w : p_static p = false ->
  genericCreate rc Call p false (mkCtx cpc g rf (v :: off :: n :: s) st co rt w) = l_create false v off n 0 (mkCtx cpc g rf s st co rt w).
Proof. intros e. unfold genericCreate. rewrite e. reflexivity. Qed.
Lemma l_create_eq2 v off n salt s cpc g rf st co rt w : p_static p = false ->
  genericCreate rc Call p true (mkCtx cpc g rf (v :: off :: n :: salt :: s) st co rt w) = l_create true v off n salt (mkCtx cpc g rf s st co rt w).
Proof. intros e. unfold genericCreate. rewrite e. reflexivity. Qed.

(** a call and its answer, on both sides *)
Lemma asked_ok w m : msg_ok m -> 0 <= msg_gas m -> msg_depth m = p_depth p + 1 ->
  exists r w', Call w (go_kind_of m) (call_params_of m) = (r, w') /\ callF w m = (cresult_of r, w') /\ call_ok m (cresult_of r).
Proof.
  intros h1 h2 h3. pose proof (Hcalls w m h1 h2 h3) as h. unfold callF in *. destruct (Call w (go_kind_of m) (call_params_of m)) as [r w']. exists r, w'. auto.
Qed.
Lemma create_tail two (P : Z -> Z -> Prop) pc g stk0 stk mf act rt rf w cpc store cost value off n salt :
  R (mkFrame pc g stk mf act rt rf w) (mkCtx cpc g rf stk store cost rt w) -> fine (mkFrame pc g stk0 mf act rt rf w) ->
  is_word value -> is_word off -> is_word n -> is_word salt -> zlen stk < 1024 -> P (pc + 1) cpc ->
  out_ok P (create_go two (mkFrame pc g stk0 mf act rt rf w) value off n salt stk) (l_create two value off n salt (mkCtx cpc g rf stk store cost rt w)).
Proof.
  intros hR hF hv ho hn hsalt hroom hP. facts. unfold create_go, l_create. change (msg_depth msg) with (p_depth p). destruct (Z.ltb_spec 1024 (p_depth p)) as [?|_]; [lia|].
  assert (hn0 : 0 <= n) by (unfold is_word in *; lia). pose proof (words_nonneg n hn0) as hwn. pose proof (fee_nonneg act off n hact) as hfee.
  pose proof (r_words _ _ hR) as hws. G.
  unfold q_charge, mem_fee. G. set (fee := Gmem (expand act off n) - Gmem act) in *. mem.
  2:{ intros hlt c'. fold fee in hlt. destruct (Z.ltb_spec g fee); [failed|lia]. }
  intros store' cost' fee' hf1 hf2 hR' hin hbytes hsmall. change fee' with fee in *. clear fee' hR. destruct (Z.ltb_spec g fee) as [?|hpay]; [lia|]. unfold bytesOf. G. rewrite hbytes.
  cbv zeta. rewrite at_shanghai. unfold computeCodeSizeCost. unfold is_word in hn. rewrite (u64_small n) by lia. rewrite sizeInWords_words by lia.
  set (w0 := if rev_ge rv Shanghai then 2 * words n else 0). set (w1 := if two then 6 * words n else 0).
  assert (hw0 : 0 <= w0 <= 2 * words n) by (unfold w0; destruct (rev_ge rv Shanghai); lia). assert (hw1 : 0 <= w1) by (unfold w1; destruct two; lia).
  pose proof (words_range n ltac:(lia)) as hwr.
  assert (h6 : s64 (u64 (6 * words n)) = 6 * words n) by (rewrite u64_small by lia; apply s64_small; lia). rewrite h6.
  (* what follows the payments *)
  assert (last : forall gg, gg = g - fee - (w0 + w1) -> 0 <= gg -> R (mkFrame pc gg stk mf (expand act off n) rt rf w) (mkCtx cpc gg rf stk store' cost' rt w) ->
    out_ok P
      (answer callF (if h_get_balance H w (self msg) <? value then Now (yield (0 :: stk) (mkFrame pc gg stk0 mf (expand act off n) [] rf w))
       else Ask w (mkMsg (if two then K_CREATE2 else K_CREATE) 0 (p_depth p + 1) (all_but_64th gg) 0 (self msg) (read_bytes mf off n) value salt 0 None)
         (fun r w2 => match cr_status r with
            | EVMC_SUCCESS => yield (cr_create_address r :: stk) (mkFrame pc (gg - all_but_64th gg + cr_gas_left r) stk0 mf (expand act off n) [] (rf + cr_gas_refund r) w2)
            | EVMC_REVERT => yield (0 :: stk) (mkFrame pc (gg - all_but_64th gg + cr_gas_left r) stk0 mf (expand act off n) (cr_output r) (rf + cr_gas_refund r) w2)
            | _ => yield (0 :: stk) (mkFrame pc (gg - all_but_64th gg + cr_gas_left r) stk0 mf (expand act off n) [] (rf + cr_gas_refund r) w2)
            end)))
      (if negb (value =? 0) && (rc_balance rc w (p_recipient p) <? value)
       then spush 0 (mkCtx cpc gg rf stk store' cost' [] w) ok
       else let '(r, w2) := Call w (if two then GoCreate2 else GoCreate) (mkCallParams (p_recipient p) 0 value (read_bytes mf off n) (gg - gg / 64) salt 0) in
         spush (match r with Some r => if gr_success r then gr_created r else 0 | None => 0 end) (mkCtx cpc gg rf stk store' cost' rt w2) (fun c =>
           ok (set_refund (s64 (c_refund (set_gas (s64 (c_gas (set_ret (match r with Some r => if gr_success r then [] else gr_output r | None => [] end) c) - (gg - gg / 64) + match r with Some r => gr_gas_left r | None => 0 end))
                (set_ret (match r with Some r => if gr_success r then [] else gr_output r | None => [] end) c)) + match r with Some r => gr_gas_refund r | None => 0 end))
              (set_gas (s64 (c_gas (set_ret (match r with Some r => if gr_success r then [] else gr_output r | None => [] end) c) - (gg - gg / 64) + match r with Some r => gr_gas_left r | None => 0 end))
                (set_ret (match r with Some r => if gr_success r then [] else gr_output r | None => [] end) c)))))).
  { intros gg egg hgg hR1. H'. change (self msg) with (p_recipient p). assert (hz : is_word 0) by (unfold is_word; lia).
    pose proof (hok_get_balance _ Hhost w (p_recipient p)) as hbal. H'. unfold is_word in hbal.
    assert (et : negb (value =? 0) && (rc_balance rc w (p_recipient p) <? value) = (rc_balance rc w (p_recipient p) <? value)).
    { destruct (Z.eqb_spec value 0); [|reflexivity]. cbn. destruct (Z.ltb_spec (rc_balance rc w (p_recipient p)) value); [lia|reflexivity]. }
    rewrite et. destruct (rc_balance rc w (p_recipient p) <? value).
    { acc. cbn [answer]. clear hR'. eexists. split; [reflexivity|]. split; [|G; exact hP]. destruct hR1; split; G; try assumption; try reflexivity; try (constructor; assumption); try constructor. }
    cbn [answer]. fold (all_but_64th gg). pose proof (all_but_bounds gg hgg) as hab.
    set (m := mkMsg (if two then K_CREATE2 else K_CREATE) 0 (p_depth p + 1) (all_but_64th gg) 0 (p_recipient p) (read_bytes mf off n) value salt 0 None).
    assert (hm : msg_ok m).
    { destruct Hmsg as [q1 q2 q3 q4 q5 q6 q7 q8]. cbn in q1, q2, q3, q4, q5, q6, q7, q8. pose proof (Gmem_nonneg act hact).
      split; cbn; try lia; try assumption; try (unfold is_addr; lia).
      - apply (mem_bytes _ _ _ _ _ _ _ _ _ _ _ hR1). unfold is_word in ho. lia.
      - rewrite read_bytes_zlen. lia. }
    destruct (asked_ok w m hm ltac:(cbn; lia) ltac:(reflexivity)) as (r & w2 & eC & eF & hr). rewrite eF.
    assert (eC' : Call w (if two then GoCreate2 else GoCreate) (mkCallParams (p_recipient p) 0 value (read_bytes mf off n) (all_but_64th gg) salt 0) = (r, w2)).
    { rewrite <- eC. destruct two; reflexivity. }
    rewrite eC'. rewrite spush_eq by assumption. G.
    destruct hr as [k1 k2 k3 k4 k5]. cbn [msg_gas m] in *.
    assert (hgl : 0 <= cr_gas_left (cresult_of r) <= all_but_64th gg) by lia.
    assert (Gmem_nonneg' : 0 <= Gmem act) by (apply Gmem_nonneg; assumption).
    assert (eg : s64 (gg - all_but_64th gg + match r with Some r => gr_gas_left r | None => 0 end) = gg - all_but_64th gg + cr_gas_left (cresult_of r)).
    { replace (match r with Some r => gr_gas_left r | None => 0 end) with (cr_gas_left (cresult_of r)) by (destruct r; reflexivity). apply s64_id. lia. }
    assert (er : s64 (rf + match r with Some r => gr_gas_refund r | None => 0 end) = rf + cr_gas_refund (cresult_of r)).
    { replace (match r with Some r => gr_gas_refund r | None => 0 end) with (cr_gas_refund (cresult_of r)) by (destruct r; reflexivity). apply (s64_refund rf g); try assumption. lia. }
    rewrite eg, er. clear hR'. destruct r as [[out gl grf cre succ]|].
    - cbn [cresult_of cr_status cr_gas_left cr_gas_refund cr_output cr_create_address gr_success gr_output gr_created gr_gas_left gr_gas_refund] in *. destruct succ.
      + eexists. split; [reflexivity|]. split; [|G; exact hP]. destruct hR1; split; G; try assumption; try reflexivity; try constructor; try assumption. unfold is_addr, is_word in *; lia.
      + eexists. split; [reflexivity|]. split; [|G; exact hP]. destruct hR1; split; G; try assumption; try reflexivity. constructor; assumption.
    - cbn [cresult_of cr_status cr_gas_left cr_gas_refund cr_output cr_create_address] in *. eexists. split; [reflexivity|]. split; [|G; exact hP]. destruct hR1; split; G; try assumption; try reflexivity; try constructor; assumption. }
  destruct (rev_ge rv Shanghai && (49152 <? n)) eqn:ebig.
  { apply andb_prop in ebig. destruct ebig as [-> ebig]. change (2 * 24576) with 49152. rewrite ebig. failed. }
  assert (ecs : rev_ge rv Shanghai = true -> (49152 <? n) = false) by (intros e; rewrite e in ebig; exact ebig).
  assert (hR2 : R (mkFrame pc (g - fee - (w0 + w1)) stk mf (expand act off n) rt rf w) (mkCtx cpc (g - fee - (w0 + w1)) rf stk store' cost' rt w)) by (regas (g - fee - (w0 + w1)); exact hR').
  assert (e0 : w0 = if rev_ge rv Shanghai then 2 * words n else 0) by reflexivity. assert (e1 : w1 = if two then 6 * words n else 0) by reflexivity.
  clearbody w0 w1. clear hR' hF h6 hbytes.
  assert (poor : forall r c', g - fee < w0 + w1 -> r = err c' -> out_ok P
    (answer callF (if g - fee <? w0 + w1 then Now (Fail OutOfGas (mkFrame pc (g - fee) stk0 mf act rt rf w)) else
      if h_get_balance H w (self msg) <? value then Now (yield (0 :: stk) (mkFrame pc (g - fee - (w0 + w1)) stk0 mf (expand act off n) [] rf w))
       else Ask w (mkMsg (if two then K_CREATE2 else K_CREATE) 0 (p_depth p + 1) (all_but_64th (g - fee - (w0 + w1))) 0 (self msg) (read_bytes mf off n) value salt 0 None)
         (fun r w2 => match cr_status r with
            | EVMC_SUCCESS => yield (cr_create_address r :: stk) (mkFrame pc (g - fee - (w0 + w1) - all_but_64th (g - fee - (w0 + w1)) + cr_gas_left r) stk0 mf (expand act off n) [] (rf + cr_gas_refund r) w2)
            | EVMC_REVERT => yield (0 :: stk) (mkFrame pc (g - fee - (w0 + w1) - all_but_64th (g - fee - (w0 + w1)) + cr_gas_left r) stk0 mf (expand act off n) (cr_output r) (rf + cr_gas_refund r) w2)
            | _ => yield (0 :: stk) (mkFrame pc (g - fee - (w0 + w1) - all_but_64th (g - fee - (w0 + w1)) + cr_gas_left r) stk0 mf (expand act off n) [] (rf + cr_gas_refund r) w2)
            end))) r).
  { intros r c' hlt ->. destruct (Z.ltb_spec (g - fee) (w0 + w1)) as [?|?]; [failed|lia]. }
  specialize (last (g - fee - (w0 + w1)) eq_refl).
  destruct (rev_ge rv Shanghai) eqn:es; [change (2 * 24576) with 49152; rewrite ecs by reflexivity|]; destruct two.
  - apply gas_step; [lia|lia| |]; [intros hc1; apply gas_step; [lia|lia| |]; [intros hc2|]|].
    + destruct (Z.ltb_spec (g - fee) (w0 + w1)) as [?|_]; [lia|]. replace (g - fee - 2 * words n - 6 * words n) with (g - fee - (w0 + w1)) by lia. exact (last ltac:(lia) hR2).
    + intros hlt c'. apply (poor _ c'); [lia|reflexivity].
    + intros hlt c'. apply (poor _ c'); [lia|reflexivity].
  - apply gas_step; [lia|lia| |]; [intros hc2|].
    + destruct (Z.ltb_spec (g - fee) (w0 + w1)) as [?|_]; [lia|]. replace (g - fee - 2 * words n) with (g - fee - (w0 + w1)) by lia. exact (last ltac:(lia) hR2).
    + intros hlt c'. apply (poor _ c'); [lia|reflexivity].
  - apply gas_step; [lia|lia| |]; [intros hc2|].
    + destruct (Z.ltb_spec (g - fee) (w0 + w1)) as [?|_]; [lia|]. replace (g - fee - 6 * words n) with (g - fee - (w0 + w1)) by lia. exact (last ltac:(lia) hR2).
    + intros hlt c'. apply (poor _ c'); [lia|reflexivity].
  - destruct (Z.ltb_spec (g - fee) (w0 + w1)) as [?|_]; [lia|]. assert (ez : g - fee - (w0 + w1) = g - fee) by lia. rewrite ez in last, hR2 |- *. exact (last ltac:(lia) hR2).
Qed.
Lemma sim_create (two : bool) : p_static p = false -> sim (if two then 4 else 3) 1 (i_create H callF msg rv two) (genericCreate rc Call p two).
Proof.
  intros hs. destruct two; start; pops; rename z into v, z0 into off, z1 into n.
  - rewrite (create_go_eq2 _ v off n z2 stk) by reflexivity. rewrite l_create_eq2 by assumption.
    apply create_tail; try assumption; [|lia]. restack stk. assumption.
  - rewrite (create_go_eq1 _ v off n stk) by reflexivity. rewrite l_create_eq1 by assumption.
    apply create_tail; try assumption; [|unfold is_word; lia|lia]. restack stk. assumption.
Qed.

Lemma cond_gas (Q : res oc -> Prop) (b : bool) a cpc g rf s st co rt w (k : ctx -> res oc) : 0 <= g -> 0 <= a ->
  ((if b then a else 0) <= g -> Q (k (mkCtx cpc (g - (if b then a else 0)) rf s st co rt w))) -> (g < (if b then a else 0) -> forall c, Q (err c)) ->
  Q (if b then useGas a (mkCtx cpc g rf s st co rt w) k else k (mkCtx cpc g rf s st co rt w)).
Proof. intros hg ha h1 h2. destruct b; [apply gas_step; auto|]. rewrite Z.sub_0_r in h1. apply h1. exact hg. Qed.

Definition kind_of (k : call_op) : lkind :=
  match k with OpCall => KCall | OpCallCode => KCallCode | OpDelegateCall => KDelegateCall | OpStaticCall => KStaticCall end.

(** what remains when everything has been paid, on both sides *)
Definition go_last (k : call_op) pc avail (stk0 : list Z) mf act2 rf (w : W) greq addr value ioff isz ooff osz (s : list Z) : outcome W :=
  answer callF (
    let transfers := negb (value =? 0) in
    let f4 := mkFrame pc avail stk0 mf act2 [] rf w in
    let fwd := Z.min greq (all_but_64th avail) in
    let stipend := if transfers then 2300 else 0 in
    if transfers && (h_get_balance H (f_world f4) (self msg) <? value)
    then Now (yield (0 :: s) (with_gas (avail + stipend) f4))
    else
      let m := mkMsg
        (match k with OpDelegateCall => K_DELEGATECALL | OpCallCode => K_CALLCODE | _ => K_CALL end)
        (match k with OpStaticCall => EVMC_STATIC | _ => msg_flags msg end)
        (msg_depth msg + 1)
        (fwd + stipend)
        (match k with OpCall | OpStaticCall => addr | _ => self msg end)
        (match k with OpDelegateCall => msg_sender msg | _ => self msg end)
        (read_bytes (f_mem f4) ioff isz)
        (match k with OpDelegateCall => msg_value msg | _ => value end)
        0 addr None in
      Ask (f_world f4) m (fun r w =>
      let out := cr_output r in
      let f5 := with_world w (add_refund (cr_gas_refund r) (with_gas (avail - fwd + cr_gas_left r) f4)) in
      let f6 := with_ret out (with_mem (write_bytes (f_mem f5) ooff (firstn (Z.to_nat (Z.min osz (zlen out))) out)) f5) in
      yield (bool_word (status_eqb (cr_status r) EVMC_SUCCESS) :: s) f6)).
Definition call_go (k : call_op) (f : frame) (greq a value ioff isz ooff osz : Z) (s : list Z) : outcome W :=
  answer callF (
    let addr := addr_of a in
    let transfers := negb (value =? 0) in
    if 1024 <? msg_depth msg then Now (Fail CallDepth f)
    else
    let act := expand (expand (f_active f) ioff isz) ooff osz in
    q_charge (Gmem act - Gmem (f_active f)) f (fun f1 =>
    if match k with OpCall => transfers && static msg | _ => false end then Now (Fail StaticViolation f)
    else
    let '(c, f2) := account_cost H rv f1 addr in
    let new_account := match k with OpCall => transfers && negb (h_account_exists H (f_world f2) addr) | _ => false end in
    q_charge (c + (if transfers then 9000 else 0) + (if new_account then 25000 else 0)) f2 (fun f3 =>
    let f4 := with_ret [] (with_active act f3) in
    let avail := f_gas f4 in
    let fwd := Z.min greq (all_but_64th avail) in
    let stipend := if transfers then 2300 else 0 in
    if transfers && (h_get_balance H (f_world f4) (self msg) <? value)
    then Now (yield (0 :: s) (with_gas (avail + stipend) f4))
    else
      let m := mkMsg
        (match k with OpDelegateCall => K_DELEGATECALL | OpCallCode => K_CALLCODE | _ => K_CALL end)
        (match k with OpStaticCall => EVMC_STATIC | _ => msg_flags msg end)
        (msg_depth msg + 1)
        (fwd + stipend)
        (match k with OpCall | OpStaticCall => addr | _ => self msg end)
        (match k with OpDelegateCall => msg_sender msg | _ => self msg end)
        (read_bytes (f_mem f4) ioff isz)
        (match k with OpDelegateCall => msg_value msg | _ => value end)
        0 addr None in
      Ask (f_world f4) m (fun r w =>
      let out := cr_output r in
      let f5 := with_world w (add_refund (cr_gas_refund r) (with_gas (avail - fwd + cr_gas_left r) f4)) in
      let f6 := with_ret out (with_mem (write_bytes (f_mem f5) ooff (firstn (Z.to_nat (Z.min osz (zlen out))) out)) f5) in
      yield (bool_word (status_eqb (cr_status r) EVMC_SUCCESS) :: s) f6)))).
Definition with_value (k : call_op) : bool := match k with OpCall | OpCallCode => true | _ => false end.
Lemma call_go_eq k f g a v io is oo os s : f_stack f = g :: a :: (if with_value k then [v] else []) ++ io :: is :: oo :: os :: s -> (with_value k = false -> v = 0) ->
  i_call H callF msg rv k f = call_go k f g a v io is oo os s.
Proof. intros e hv. unfold i_call, q_call. rewrite e. destruct k; cbn in hv |- *; try rewrite (hv eq_refl); reflexivity. Qed.

Definition l_last (kind : lkind) (provided_gas toAddr value : Z) (args output : Z * Z) (c : ctx) : res oc :=
        let g := c_gas c - c_gas c / 64 in
        let nestedCallGas :=
          if isUint64 provided_gas && (u64 provided_gas <=? 2 ^ 63 - 1) && (s64 (u64 provided_gas) <=? g)
          then s64 (u64 provided_gas) else g in
        let c := set_gas (c_gas c - nestedCallGas) c in
        let nestedCallGas := if negb (value =? 0) then s64 (nestedCallGas + 2300) else nestedCallGas in
        let needsFunds := match kind with KCall | KCallCode => negb (value =? 0) | _ => false end in
        if needsFunds && (rc_balance rc (c_world c) (p_recipient p) <? value)
        then spush 0 c (fun c => ok (set_gas (s64 (c_gas c + nestedCallGas)) (set_ret [] c)))
        else
          let goKind := match kind with
                        | KCall => if p_static p then GoStaticCall else GoCall
                        | KCallCode => GoCallCode | KDelegateCall => GoDelegateCall | KStaticCall => GoStaticCall
                        end in
          let params := match kind with
            | KCall | KStaticCall => mkCallParams (p_recipient p) toAddr value (bytesOf args c) nestedCallGas 0 toAddr
            | KCallCode => mkCallParams (p_recipient p) (p_recipient p) value (bytesOf args c) nestedCallGas 0 toAddr
            | KDelegateCall => mkCallParams (p_sender p) (p_recipient p) (p_value p) (bytesOf args c) nestedCallGas 0 toAddr
            end in
          let '(r, w) := Call (c_world c) goKind params in
          let c := set_world w c in
          let c := match r with Some r => copyInto output (gr_output r) c | None => c end in
          spush (match r with Some r => b2w (gr_success r) | None => 0 end) c (fun c =>
          let c := set_gas (s64 (c_gas c + match r with Some r => gr_gas_left r | None => 0 end)) c in
          let c := set_refund (s64 (c_refund c + match r with Some r => gr_gas_refund r | None => 0 end)) c in
          ok (set_ret (match r with Some r => gr_output r | None => [] end) c)).
Definition l_call (kind : lkind) (provided_gas addr value inOffset inSize retOffset retSize : Z) (c : ctx) : res oc :=
    let toAddr := bytes20 addr in
    getSlice inOffset inSize c (fun args c =>
    getSlice retOffset retSize c (fun output c =>
    accessAccount rc p toAddr c (fun c =>
    let afterValue (c : ctx) :=
      if match kind with KCall => negb (value =? 0) && isEmpty rc (c_world c) toAddr | _ => false end
      then useGas 25000 c (l_last kind provided_gas toAddr value args output) else l_last kind provided_gas toAddr value args output c in
    if negb (value =? 0) then useGas 9000 c afterValue else afterValue c))).
Lemma l_call_eq k pg a v io is oo os s cpc g rf st co rt w : (with_value k = false -> v = 0) ->
  genericCall rc Call p (kind_of k) (mkCtx cpc g rf (pg :: a :: (if with_value k then [v] else []) ++ io :: is :: oo :: os :: s) st co rt w) =
  l_call (kind_of k) pg a v io is oo os (mkCtx cpc g rf s st co rt w).
Proof. intros hv. unfold genericCall. destruct k; cbn in hv; try rewrite (hv eq_refl); reflexivity. Qed.

(** ** The payments *)
Definition access (w : W) (a : Z) : Z * W :=
  if rev_ge rv Berlin then let '(st, w1) := rc_access_account rc w a in (getAccessCost st, w1) else (700, w).
Definition v9 (value : Z) : Z := if negb (value =? 0) then 9000 else 0.
Definition v25 (k : call_op) (value addr : Z) (w : W) : Z :=
  if match k with OpCall => negb (value =? 0) && is_empty rc w addr | _ => false end then 25000 else 0.
Lemma go_pays k pc g stk0 mf act rt rf w greq a value ioff isz ooff osz s :
  (k = OpCall -> p_static p = true -> value = 0) -> 0 <= act ->
  let act2 := expand (expand act ioff isz) ooff osz in
  let '(c, w1) := access w (addr_of a) in
  let tot := (Gmem act2 - Gmem act) + c + v9 value + v25 k value (addr_of a) w1 in
  (g < tot -> exists e f0, call_go k (mkFrame pc g stk0 mf act rt rf w) greq a value ioff isz ooff osz s = Fail e f0) /\
  (tot <= g -> call_go k (mkFrame pc g stk0 mf act rt rf w) greq a value ioff isz ooff osz s =
     go_last k pc (g - tot) stk0 mf act2 rf w1 greq (addr_of a) value ioff isz ooff osz s).
Proof.
  intros hst hact act2. destruct (access w (addr_of a)) as [c w1] eqn:ea. intros tot.
  assert (hfee : 0 <= Gmem act2 - Gmem act).
  { unfold act2. rewrite expand2. pose proof (fee_nonneg act ioff isz hact). pose proof (fee_nonneg (expand act ioff isz) ooff osz ltac:(pose proof (expand_ge act ioff isz); lia)). lia. }
  assert (hc : 100 <= c). { revert ea. unfold access. destruct (rev_ge rv Berlin); [destruct (rc_access_account rc w (addr_of a)) as [st w2]; destruct st; cbn|]; intros q; injection q; lia. }
  assert (h9 : 0 <= v9 value) by (unfold v9; destruct (negb (value =? 0)); lia).
  assert (h25 : 0 <= v25 k value (addr_of a) w1) by (unfold v25; destruct (match k with OpCall => _ | _ => _ end); lia).
  unfold call_go. change (msg_depth msg) with (p_depth p). destruct (Z.ltb_spec 1024 (p_depth p)) as [?|_]; [lia|].
  unfold q_charge. G. fold act2.
  assert (est : match k with OpCall => negb (value =? 0) && static msg | _ => false end = false).
  { destruct k; try reflexivity. rewrite static_flag. destruct (p_static p); [|apply andb_false_r]. rewrite (hst eq_refl eq_refl). reflexivity. }
  rewrite est.
  assert (eac : forall gg, account_cost H rv (mkFrame pc gg stk0 mf act rt rf w) (addr_of a) = (c, mkFrame pc gg stk0 mf act rt rf w1)).
  { intros gg. unfold account_cost. G. revert ea. unfold access. destruct (rev_ge rv Berlin).
    - H'. destruct (rc_access_account rc w (addr_of a)) as [st w2]. intros q. injection q as <- <-. unfold with_world. G. destruct st; reflexivity.
    - intros q. injection q as <- <-. reflexivity. }
  assert (enew : (if match k with OpCall => negb (value =? 0) && negb (h_account_exists H w1 (addr_of a)) | _ => false end then 25000 else 0) = v25 k value (addr_of a) w1).
  { unfold v25. H'. destruct k; try reflexivity. rewrite negb_involutive. reflexivity. }
  split; intros hcase.
  - destruct (Z.ltb_spec g (Gmem act2 - Gmem act)) as [?|hm]; [cbn; eauto|]. G. rewrite eac. G. rewrite enew. fold (v9 value).
    destruct (Z.ltb_spec (g - (Gmem act2 - Gmem act)) (c + v9 value + v25 k value (addr_of a) w1)) as [?|?]; [cbn; eauto|unfold tot in *; lia].
  - destruct (Z.ltb_spec g (Gmem act2 - Gmem act)) as [?|hm]; [unfold tot in *; lia|]. G. rewrite eac. G. rewrite enew. fold (v9 value).
    destruct (Z.ltb_spec (g - (Gmem act2 - Gmem act)) (c + v9 value + v25 k value (addr_of a) w1)) as [?|?]; [unfold tot in *; lia|].
    replace (g - (Gmem act2 - Gmem act) - (c + v9 value + v25 k value (addr_of a) w1)) with (g - tot) by (unfold tot; lia). reflexivity.
Qed.
Lemma l_pays k (Q : res oc -> Prop) pc g stk mf act rt rf w cpc store cost pg a value ioff isz ooff osz :
  R (mkFrame pc g stk mf act rt rf w) (mkCtx cpc g rf stk store cost rt w) -> 0 <= g - price_of 700 -> g + Gmem act < 2 ^ 54 ->
  is_word ioff -> is_word isz -> is_word ooff -> is_word osz ->
  let act2 := expand (expand act ioff isz) ooff osz in
  let '(c, w1) := access w (bytes20 a) in
  let tot := (Gmem act2 - Gmem act) + c + v9 value + v25 k value (bytes20 a) w1 in
  (g < tot -> forall c', Q (err c')) ->
  (tot <= g -> forall store' cost', R (mkFrame pc (g - tot) stk mf act2 rt rf w1) (mkCtx cpc (g - tot) rf stk store' cost' rt w1) ->
     fst (slice_of ioff isz) + snd (slice_of ioff isz) <= zlen store' -> fst (slice_of ooff osz) + snd (slice_of ooff osz) <= zlen store' -> isz <= 2 ^ 37 -> osz <= 2 ^ 37 ->
     Q (l_last (kind_of k) pg (bytes20 a) value (slice_of ioff isz) (slice_of ooff osz) (mkCtx cpc (g - tot) rf stk store' cost' rt w1))) ->
  Q (l_call (kind_of k) pg a value ioff isz ooff osz (mkCtx cpc (g - price_of 700) rf stk store cost rt w)).
Proof.
  intros hR hg hgm ho hn ho2 hn2 act2. destruct (access w (bytes20 a)) as [c w1] eqn:ea. intros tot hbad hgood.
  pose proof (R_act _ _ _ _ _ _ _ _ _ hR) as hact.
  pose proof (fee_nonneg act ioff isz hact) as hf1. assert (hact1 : 0 <= expand act ioff isz) by (pose proof (expand_ge act ioff isz); lia).
  pose proof (fee_nonneg (expand act ioff isz) ooff osz hact1) as hf2.
  assert (hfee : Gmem act2 - Gmem act = (Gmem (expand act ioff isz) - Gmem act) + (Gmem act2 - Gmem (expand act ioff isz))) by (unfold act2; lia).
  fold act2 in hf2.
  assert (h9 : 0 <= v9 value) by (unfold v9; destruct (negb (value =? 0)); lia).
  assert (h25 : 0 <= v25 k value (bytes20 a) w1) by (unfold v25; destruct (match k with OpCall => _ | _ => _ end); lia).
  assert (hpr : price_of 700 <= c /\ 100 <= c).
  { revert ea. unfold access, price_of. destruct (rev_ge rv Berlin); [destruct (rc_access_account rc w (bytes20 a)) as [st w2]; destruct st; cbn|]; intros q; injection q; lia. }
  assert (hp0 : 0 <= price_of 700) by (unfold price_of; destruct (rev_ge rv Berlin); lia).
  unfold l_call. cbv zeta. regas (g - price_of 700). mem; [|intros hlt; apply hbad; unfold tot; lia].
  intros store1 cost1 fee1 _ hp1 hR1 hin1 _ hs1. clear hR. pose proof (r_len _ _ hR1) as hz1. G.
  apply (slice_step _ _ _ _ _ _ _ _ _ _ _ _ _ _ _ hR1); [lia|unfold fee1; lia|assumption|assumption| |intros hlt; apply hbad; unfold tot, act2, fee1 in *; lia].
  intros store2 cost2 fee2 _ hp2 hR2 hin2 _ hs2. clear hR1. fold act2 in hR2.
  assert (hsz : zlen store1 <= zlen store2).
  { pose proof (r_len _ _ hR2) as e2. G. rewrite e2, hz1. unfold act2. apply expand_ge. }
  set (gg := g - price_of 700 - fee1 - fee2) in *.
  assert (egg : gg = g - price_of 700 - (Gmem act2 - Gmem act)) by (unfold gg, fee1, fee2, act2; lia).
  assert (hgg : 0 <= gg) by (unfold gg; lia).
  (* value and new account *)
  assert (vals : forall g2, 0 <= g2 -> g2 = g - (Gmem act2 - Gmem act) - c ->
    Q ((fun c0 : ctx => if negb (value =? 0) then useGas 9000 c0 (fun c : ctx =>
      if match kind_of k with KCall => negb (value =? 0) && isEmpty rc (c_world c) (bytes20 a) | _ => false end
      then useGas 25000 c (l_last (kind_of k) pg (bytes20 a) value (slice_of ioff isz) (slice_of ooff osz)) else l_last (kind_of k) pg (bytes20 a) value (slice_of ioff isz) (slice_of ooff osz) c)
     else (fun c : ctx =>
      if match kind_of k with KCall => negb (value =? 0) && isEmpty rc (c_world c) (bytes20 a) | _ => false end
      then useGas 25000 c (l_last (kind_of k) pg (bytes20 a) value (slice_of ioff isz) (slice_of ooff osz)) else l_last (kind_of k) pg (bytes20 a) value (slice_of ioff isz) (slice_of ooff osz) c) c0)
     (mkCtx cpc g2 rf stk store2 cost2 rt w1))).
  { intros g2 hg2 eg2. cbv beta. apply cond_gas; [exact hg2|lia| |fold (v9 value); intros hlt; apply hbad; unfold tot; lia].
    fold (v9 value). intros hv9. G.
    assert (e25 : match kind_of k with KCall => negb (value =? 0) && isEmpty rc w1 (bytes20 a) | _ => false end = match k with OpCall => negb (value =? 0) && is_empty rc w1 (bytes20 a) | _ => false end) by (destruct k; reflexivity).
    rewrite e25. apply cond_gas; [lia|lia| |fold (v25 k value (bytes20 a) w1); intros hlt; apply hbad; unfold tot; lia].
    fold (v25 k value (bytes20 a) w1). intros hv25. replace (g2 - v9 value - v25 k value (bytes20 a) w1) with (g - tot) by (unfold tot; lia).
    apply hgood; [unfold tot; lia| |lia|lia|lia|lia]. destruct hR2; split; G; auto. }
  unfold accessAccount. rewrite at_berlin. revert ea. unfold access. unfold price_of in *. destruct (rev_ge rv Berlin).
  - destruct (rc_access_account rc w (bytes20 a)) as [st w2] eqn:eacc. intros q. injection q as <- <-. G.
    rewrite eacc. G. apply gas_step; [lia|lia| |intros hlt; apply hbad; unfold tot; lia]. intros hc. apply vals; lia.
  - intros q. injection q as <- <-. apply vals; lia.
Qed.

(** ** The call itself *)
Lemma nested_gas (pg g : Z) : is_word pg -> 0 <= g < 2 ^ 62 ->
  (if isUint64 pg && (u64 pg <=? 2 ^ 63 - 1) && (s64 (u64 pg) <=? g) then s64 (u64 pg) else g) = Z.min pg g.
Proof.
  intros hp hg. unfold is_word in hp. unfold isUint64. destruct (Z.ltb_spec pg (2 ^ 64)) as [h|h]; cbn [andb]; [|lia]. rewrite u64_small by lia.
  destruct (Z.leb_spec pg (2 ^ 63 - 1)); cbn [andb]; [|lia]. rewrite s64_small by lia. destruct (Z.leb_spec pg g); lia.
Qed.
Lemma call_last k (P : Z -> Z -> Prop) pc g0 avail stk0 stk mf act rt rf w cpc store cost pg a value ioff isz ooff osz :
  R (mkFrame pc avail stk mf act rt rf w) (mkCtx cpc avail rf stk store cost rt w) -> 0 <= avail <= g0 -> g0 < 2 ^ 54 -> Z.abs rf <= 199 * (2 ^ 54 - g0) ->
  (value <> 0 -> avail + 2300 < 2 ^ 54) -> (with_value k = false -> value = 0) ->
  is_word pg -> is_word value -> is_word ioff -> is_word isz -> is_word ooff -> is_word osz ->
  fst (slice_of ioff isz) + snd (slice_of ioff isz) <= zlen store -> fst (slice_of ooff osz) + snd (slice_of ooff osz) <= zlen store ->
  isz <= 2 ^ 37 -> osz <= 2 ^ 37 -> zlen stk < 1024 -> P (pc + 1) cpc ->
  out_ok P (go_last k pc avail stk0 mf act rf w pg (addr_of a) value ioff isz ooff osz stk)
    (l_last (kind_of k) pg (bytes20 a) value (slice_of ioff isz) (slice_of ooff osz) (mkCtx cpc avail rf stk store cost rt w)).
Proof.
  intros hR hav hg0 hrf hst hnov hpg hval hio his hoo hos hin1 hin2 hs1 hs2 hroom hP.
  pose proof (all_but_bounds avail ltac:(lia)) as hab.
  unfold go_last, l_last. cbv zeta. G. fold (all_but_64th avail). rewrite nested_gas by (assumption || lia).
  set (fwd := Z.min pg (all_but_64th avail)). assert (hfwd : 0 <= fwd <= all_but_64th avail) by (unfold fwd, is_word in *; lia).
  set (st := if negb (value =? 0) then 2300 else 0).
  assert (hst' : 0 <= st <= 2300 /\ fwd + st < 2 ^ 54). { unfold st. destruct (Z.eqb_spec value 0); cbn [negb]; lia. }
  assert (en : (if negb (value =? 0) then s64 (fwd + 2300) else fwd) = fwd + st).
  { unfold st. destruct (negb (value =? 0)); [apply s64_id; lia|lia]. }
  rewrite en. clear en. H'. change (self msg) with (p_recipient p). change (msg_sender msg) with (p_sender p). change (msg_value msg) with (p_value p). change (msg_depth msg) with (p_depth p).
  pose proof (r_words _ _ hR) as hws. G.
  assert (ebal : match kind_of k with KCall | KCallCode => negb (value =? 0) | _ => false end = negb (value =? 0)).
  { revert hnov. clear. destruct k; intros hnov; try reflexivity; rewrite (hnov eq_refl); reflexivity. }
  rewrite ebal. destruct (negb (value =? 0) && (rc_balance rc w (p_recipient p) <? value)).
  { cbn [answer]. acc. G. rewrite s64_id by lia. eexists. split; [reflexivity|]. split; [|G; exact hP].
    assert (hz : is_word 0) by (unfold is_word; lia).
    destruct hR; split; G; try assumption; try reflexivity; try lia; try (constructor; assumption); try constructor. }
  cbn [answer].
  set (m := mkMsg (match k with OpDelegateCall => K_DELEGATECALL | OpCallCode => K_CALLCODE | _ => K_CALL end)
        (match k with OpStaticCall => EVMC_STATIC | _ => msg_flags msg end) (p_depth p + 1) (fwd + st)
        (match k with OpCall | OpStaticCall => addr_of a | _ => p_recipient p end) (match k with OpDelegateCall => p_sender p | _ => p_recipient p end)
        (read_bytes mf ioff isz) (match k with OpDelegateCall => p_value p | _ => value end) 0 (addr_of a) None).
  assert (haddr : is_addr (addr_of a)) by (unfold is_addr, addr_of; apply Z.mod_pos_bound; lia).
  assert (hm : msg_ok m).
  { destruct Hmsg as [q1 q2 q3 q4 q5 q6 q7 q8]. cbn in q1, q2, q3, q4, q5, q6, q7, q8. unfold is_word in *.
    split; cbn; try lia; try (destruct k; assumption); try (unfold is_addr; lia).
    all: try (apply (mem_bytes _ _ _ _ _ _ _ _ _ _ _ hR); lia).
    all: try (rewrite read_bytes_zlen; lia).
    all: destruct k; unfold is_word, is_addr, EVMC_STATIC in *; try lia. }
  destruct (asked_ok w m hm ltac:(cbn; lia) ltac:(reflexivity)) as (r & w2 & eC & eF & hr). rewrite eF.
  unfold bytesOf. G. rewrite (slice_mem _ _ _ _ _ _ _ _ _ _ _ _ _ hR) by (unfold is_word in *; lia).
  match goal with |- context [Call w ?kk ?pp] => assert (eC' : Call w kk pp = (r, w2)) end.
  { rewrite <- eC. unfold m, go_kind_of, call_params_of. cbn [msg_kind msg_flags msg_sender msg_recipient msg_value msg_input msg_gas msg_salt msg_code_address].
    destruct k; cbn [kind_of]; try reflexivity. change (Z.odd (msg_flags msg)) with (static msg). rewrite static_flag. reflexivity. }
  rewrite eC'. clear eC eC' eF.
  destruct hr as [k1 k2 k3 k4 k5]. cbn [msg_gas m] in *.
  assert (eg : forall x, x = match r with Some r => gr_gas_left r | None => 0 end -> s64 (avail - fwd + x) = avail - fwd + cr_gas_left (cresult_of r)).
  { intros x ->. replace (match r with Some r => gr_gas_left r | None => 0 end) with (cr_gas_left (cresult_of r)) by (destruct r; reflexivity). apply s64_id. lia. }
  assert (er : s64 (rf + match r with Some r => gr_gas_refund r | None => 0 end) = rf + cr_gas_refund (cresult_of r)).
  { replace (match r with Some r => gr_gas_refund r | None => 0 end) with (cr_gas_refund (cresult_of r)) by (destruct r; reflexivity). apply (s64_refund rf g0); try assumption; lia. }
  destruct r as [[out gl grf cre succ]|].
  - cbn [cresult_of cr_status cr_gas_left cr_gas_refund cr_output cr_create_address gr_success gr_output gr_created gr_gas_left gr_gas_refund] in *.
    assert (ef : firstn (Z.to_nat (Z.min osz (zlen out))) out = firstn (Z.to_nat osz) out).
    { destruct (Z.le_gt_cases osz (zlen out)) as [hle|hgt]; [rewrite Z.min_l by lia; reflexivity|]. rewrite Z.min_r by lia.
      rewrite !firstn_all2 by (unfold zlen in *; lia). reflexivity. }
    rewrite ef.
    assert (hR2 : R (mkFrame pc (avail - fwd) stk mf act rt rf w2) (mkCtx cpc (avail - fwd) rf stk store cost rt w2)) by (destruct hR; split; G; auto).
    assert (hcp : R (with_mem (write_bytes mf ooff (firstn (Z.to_nat osz) out)) (mkFrame pc (avail - fwd) stk mf act rt rf w2)) (copyInto (slice_of ooff osz) out (mkCtx cpc (avail - fwd) rf stk store cost rt w2))).
    { apply (copyInto_R (mkFrame pc (avail - fwd) stk mf act rt rf w2)); try assumption; unfold is_word in *; lia. }
    unfold copyInto in *. G. rewrite spush_eq by assumption. G. rewrite (eg gl eq_refl), er. unfold add_refund. G. clear hR hR2.
    eexists. split; [reflexivity|]. split; [|G; exact hP].
    destruct hcp. G. assert (hb : b2w succ = bool_word (status_eqb (if succ then EVMC_SUCCESS else EVMC_REVERT) EVMC_SUCCESS)) by (destruct succ; reflexivity).
    rewrite <- hb. split; G; try assumption; try lia; try reflexivity. constructor; [destruct succ; unfold is_word; cbn; lia|assumption].
  - cbn [cresult_of cr_status cr_gas_left cr_gas_refund cr_output cr_create_address] in *. G. rewrite spush_eq by assumption. G. rewrite (eg 0 eq_refl), er. unfold add_refund. G.
    eexists. split; [reflexivity|]. split; [|G; exact hP].
    change (firstn (Z.to_nat (Z.min osz (zlen (@nil Z)))) (@nil Z)) with (firstn (Z.to_nat (Z.min osz (zlen (@nil Z)))) (@nil Z)).
    assert (ew : forall x, write_bytes mf ooff (firstn (Z.to_nat (Z.min osz (zlen (@nil Z)))) (@nil Z)) x = mf x).
    { intros x. rewrite firstn_nil. unfold write_bytes. rewrite zlen_nil. destruct (Z.leb_spec ooff x), (Z.ltb_spec x (ooff + 0)); cbn; try lia; reflexivity. }
    destruct hR; split; G; try assumption; try lia; try reflexivity.
    + intros x hx. rewrite ew. auto.
    + constructor; [unfold is_word; cbn; lia|assumption].
Qed.
Lemma call_body k (P : Z -> Z -> Prop) pc g stk mf act rt rf w cpc store cost pg a v io is oo os :
    let s := pg :: a :: (if with_value k then [v] else []) ++ io :: is :: oo :: os :: stk in
    R (mkFrame pc g s mf act rt rf w) (mkCtx cpc g rf s store cost rt w) -> fine (mkFrame pc g s mf act rt rf w) -> Forall is_word [pg; a; v; io; is; oo; os] -> Forall is_word stk ->
    (k = OpCall -> p_static p = true -> v = 0) ->
    (with_value k = false -> v = 0) -> zlen stk < 1024 -> P (pc + 1) cpc ->
    out_ok P (i_call H callF msg rv k (mkFrame pc g s mf act rt rf w)) (useGas (price_of 700) (mkCtx cpc g rf s store cost rt w) (genericCall rc Call p (kind_of k))).
Proof.
    intros s hR hF hws hws2 hstv hv hroom hP. facts.
    rewrite (call_go_eq k (mkFrame pc g s mf act rt rf w) pg a v io is oo os stk eq_refl hv).
    apply Forall_cons_iff in hws. destruct hws as [u1 hws]. apply Forall_cons_iff in hws. destruct hws as [u2 hws]. apply Forall_cons_iff in hws. destruct hws as [u3 hws].
    apply Forall_cons_iff in hws. destruct hws as [u4 hws]. apply Forall_cons_iff in hws. destruct hws as [u5 hws]. apply Forall_cons_iff in hws. destruct hws as [u6 hws]. apply Forall_cons_iff in hws. destruct hws as [u7 _].
    pose proof (go_pays k pc g s mf act rt rf w pg a v io is oo os stk hstv hact) as hgo.
    cbv zeta in hgo. destruct (access w (addr_of a)) as [c w1] eqn:ea. destruct hgo as [go1 go2].
    set (tot := Gmem (expand (expand act io is) oo os) - Gmem act + c + v9 v + v25 k v (addr_of a) w1) in *.
    assert (hfee : 0 <= Gmem (expand (expand act io is) oo os) - Gmem act).
    { rewrite expand2. pose proof (fee_nonneg act io is hact). pose proof (fee_nonneg (expand act io is) oo os ltac:(pose proof (expand_ge act io is); lia)). lia. }
    assert (hp0 : 0 <= price_of 700 <= c). { revert ea. unfold access, price_of. destruct (rev_ge rv Berlin); [destruct (rc_access_account rc w (addr_of a)) as [st w2]; destruct st; cbn|]; intros q; injection q; lia. }
    assert (h9 : 0 <= v9 v /\ (v <> 0 -> v9 v = 9000)) by (unfold v9; destruct (Z.eqb_spec v 0); cbn [negb]; lia).
    assert (h25 : 0 <= v25 k v (addr_of a) w1) by (unfold v25; destruct (match k with OpCall => _ | _ => _ end); lia).
    apply gas_step; [lia|lia| |].
    - intros hpay. unfold s. rewrite l_call_eq by exact hv.
      assert (hR1 : R (mkFrame pc g stk mf act rt rf w) (mkCtx cpc g rf stk store cost rt w)) by (apply (R_restack _ _ _ stk) in hR; assumption).
      pose proof (l_pays k (fun r => out_ok P (call_go k (mkFrame pc g s mf act rt rf w) pg a v io is oo os stk) r) pc g stk mf act rt rf w cpc store cost pg a v io is oo os
        hR1 ltac:(lia) hgm u4 u5 u6 u7) as hl.
      change (bytes20 a) with (addr_of a) in hl. cbv zeta in hl. rewrite ea in hl. apply hl.
      + fold tot. intros hlt c'. destruct (go1 hlt) as (e & f0 & ->). failed.
      + fold tot. intros hle store' cost' hR2 hin1 hin2 hs1 hs2. rewrite (go2 hle). change (addr_of a) with (bytes20 a) at 2.
        pose proof (Gmem_nonneg act hact).
        apply (call_last k P pc g (g - tot) s stk); try assumption; try (unfold tot; lia).
    - intros hlt c'. destruct go1 as (e & f0 & ->); [unfold tot; lia|]. failed.
Qed.
Lemma sim_call k : k <> OpCall -> simf (if with_value k then 7 else 6) 1 700 (i_call H callF msg rv k) (genericCall rc Call p (kind_of k)).
Proof.
  intros hns. destruct k; [contradiction| | |]; cbn [with_value]; start; pops.
  - apply (call_body OpCallCode P pc g stk mf act rt rf w cpc store cost z z0 z1 z2 z3 z4 z5); try assumption; try discriminate; [|lia]. repeat (apply Forall_cons; [assumption|]); constructor.
  - apply (call_body OpDelegateCall P pc g stk mf act rt rf w cpc store cost z z0 0 z1 z2 z3 z4); try assumption; try discriminate; [|reflexivity|lia]. repeat (apply Forall_cons; [assumption || (unfold is_word; lia)|]); constructor.
  - apply (call_body OpStaticCall P pc g stk mf act rt rf w cpc store cost z z0 0 z1 z2 z3 z4); try assumption; try discriminate; [|reflexivity|lia]. repeat (apply Forall_cons; [assumption || (unfold is_word; lia)|]); constructor.
Qed.
Lemma sim_opcall : simf 7 1 700 (i_call H callF msg rv OpCall) (opCall rc Call p).
Proof.
  start; pops.
  assert (e : forall gg, opCall rc Call p (mkCtx cpc gg rf (z :: z0 :: z1 :: z2 :: z3 :: z4 :: z5 :: stk) store cost rt w) =
    if p_static p && negb (z1 =? 0) then err (mkCtx cpc gg rf (z :: z0 :: z1 :: z2 :: z3 :: z4 :: z5 :: stk) store cost rt w)
    else genericCall rc Call p KCall (mkCtx cpc gg rf (z :: z0 :: z1 :: z2 :: z3 :: z4 :: z5 :: stk) store cost rt w)) by reflexivity.
  facts. destruct (p_static p && negb (z1 =? 0)) eqn:es.
  - apply andb_prop in es. destruct es as [es ev].
    assert (hfail : exists er f0, i_call H callF msg rv OpCall (mkFrame pc g (z :: z0 :: z1 :: z2 :: z3 :: z4 :: z5 :: stk) mf act rt rf w) = Fail er f0).
    { rewrite (call_go_eq OpCall (mkFrame pc g (z :: z0 :: z1 :: z2 :: z3 :: z4 :: z5 :: stk) mf act rt rf w) z z0 z1 z2 z3 z4 z5 stk eq_refl ltac:(discriminate)).
      unfold call_go. change (msg_depth msg) with (p_depth p). destruct (Z.ltb_spec 1024 (p_depth p)) as [?|_]; [lia|]. unfold q_charge. G.
      destruct (g <? _); [cbn; eauto|]. rewrite static_flag, es, ev. cbn. eauto. }
    destruct hfail as (er & f0 & ->). apply gas_step; [lia|unfold price_of; destruct (rev_ge rv Berlin); lia| |intros; failed]. intros _. rewrite e. failed.
  - assert (b := call_body OpCall P pc g stk mf act rt rf w cpc store cost z z0 z1 z2 z3 z4 z5). cbv zeta in b.
    assert (hc : p_static p = true -> z1 = 0). { intros q. rewrite q in es. cbn in es. apply negb_false_iff in es. apply Z.eqb_eq. exact es. }
    specialize (b hR hF ltac:(repeat (apply Forall_cons; [assumption|]); constructor) ltac:(assumption) ltac:(auto) ltac:(discriminate) ltac:(lia) hP).
    replace (useGas (price_of 700) (mkCtx cpc g rf (z :: z0 :: z1 :: z2 :: z3 :: z4 :: z5 :: stk) store cost rt w) (opCall rc Call p))
      with (useGas (price_of 700) (mkCtx cpc g rf (z :: z0 :: z1 :: z2 :: z3 :: z4 :: z5 :: stk) store cost rt w) (genericCall rc Call p KCall)); [exact b|].
    unfold useGas. destruct (_ || _); [reflexivity|]. symmetry. apply e.
Qed.
End Ops.
