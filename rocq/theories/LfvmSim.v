(** The operations of the Go interpreter simulate the reference semantics (states and memory). *)
From Verif Require Import Base Host Uint256 SpecEvm SpecCall ArithFacts MemFacts JumpFacts SpecFacts GoAdapter LfvmCode Lfvm.
From Coq Require Import Lia ZArith List Bool.
Import ListNotations.
Open Scope Z_scope.

Lemma s64_id z : - 2 ^ 63 <= z < 2 ^ 63 -> s64 z = z.
Proof.
  intros h. unfold s64. destruct (Z.ltb_spec z 0).
  - replace (z mod 2 ^ 64) with (z + 2 ^ 64).
    + destruct (Z.ltb_spec (z + 2 ^ 64) (2 ^ 63)); lia.
    + rewrite <- (Z.mod_small (z + 2 ^ 64) (2 ^ 64)) by lia. rewrite <- (Z_mod_plus_full z 1 (2 ^ 64)). f_equal.
  - rewrite Z.mod_small by lia. destruct (Z.ltb_spec z (2 ^ 63)); lia.
Qed.
Lemma i32_id z : - 2 ^ 31 <= z < 2 ^ 31 -> i32 z = z.
Proof. intros h. unfold i32. rewrite Z.mod_small by lia. lia. Qed.
Lemma sizeInWords_spec n : 0 <= n <= 2 ^ 64 - 32 -> sizeInWords n = words n.
Proof. intros h. unfold sizeInWords, words. destruct (Z.ltb_spec (2 ^ 64 - 1 - 31) n); [lia|reflexivity]. Qed.
Lemma sizeInWords_big n : 2 ^ 64 - 31 <= n < 2 ^ 64 -> sizeInWords n = 2 ^ 59.
Proof. intros h. unfold sizeInWords. destruct (Z.ltb_spec (2 ^ 64 - 1 - 31) n); [reflexivity|lia]. Qed.
Lemma sizeInWords_words n : 0 <= n < 2 ^ 64 -> sizeInWords n = words n.
Proof.
  intros h. destruct (Z_le_gt_dec n (2 ^ 64 - 32)); [apply sizeInWords_spec; lia|].
  rewrite sizeInWords_big by lia. unfold words. apply Z.div_unique with (n + 31 - 2 ^ 64); lia.
Qed.
Lemma words_range n : 0 <= n < 2 ^ 64 -> 0 <= words n <= 2 ^ 59.
Proof. intros h. pose proof (words_bound n). lia. Qed.

(** The long-form machine, seen as a frame of the reference *)
Section Rel.
Context {W : Type}.
Notation frame := (frame W).
Notation ctx := (ctx W).
Notation oc := (oc W).

Record R (f : frame) (c : ctx) : Prop := mkR {
  r_gas : c_gas c = f_gas f;
  r_refund : c_refund c = f_refund f;
  r_stack : c_stack c = f_stack f;
  r_ret : c_ret c = f_ret f;
  r_world : c_world c = f_world f;
  r_len : zlen (c_store c) = f_active f;
  r_cost : c_cost c = Gmem (f_active f);
  r_act : f_active f = 32 * words (f_active f);
  r_mem : forall a, 0 <= a -> f_mem f a = data_at (c_store c) a;
  r_bytes : Forall is_byte (c_store c);
  r_words : Forall is_word (f_stack f);
  r_rbytes : Forall is_byte (f_ret f);
  r_rlen : zlen (f_ret f) < 2 ^ 63;
}.
Record fine (f : frame) : Prop := mkFine {
  fn_gas : 0 <= f_gas f;
  fn_mem : f_gas f + Gmem (f_active f) < 2 ^ 54;
  fn_refund : Z.abs (f_refund f) <= 199 * (2 ^ 54 - f_gas f);
}.

Definition ends (h : halt) (out : list Z) (s : lstatus) (c : ctx) : Prop :=
  match h with
  | Stopped => (s = StStopped \/ s = StSelfDestructed) /\ out = []
  | Returned => s = StReturned /\ c_ret c = out
  | Reverted => s = StReverted /\ c_ret c = out
  end.

(** [P i q]: the frame goes on at [i] when the machine has left its pc at [q] (before it is incremented) *)
Definition out_ok (P : Z -> Z -> Prop) (o : outcome W) (r : res oc) : Prop :=
  match o with
  | Next f' => exists c', r = Ok (Cont c') /\ R f' c' /\ P (f_pc f') (c_pc c')
  | Halt h out f' => exists s c', r = Ok (Ends s c') /\ ends h out s c' /\
      c_gas c' = f_gas f' /\ c_refund c' = f_refund f' /\ c_world c' = f_world f'
  | Fail _ _ => exists c', r = Ok (Err c')
  end.

Lemma R_sane f c : R f c -> fine f -> sane f.
Proof.
  intros h1 h2. destruct h1, h2. unfold sane. repeat split; try assumption.
  - rewrite <- r_len0. apply zlen_nonneg.
  - rewrite r_mem0 by assumption. pose proof (data_at_byte (c_store c) a r_bytes0) as [? ?]. assumption.
  - rewrite r_mem0 by assumption. pose proof (data_at_byte (c_store c) a r_bytes0) as [? ?]. assumption.
Qed.
Lemma R_pc f c p q : R f c -> R (with_pc p f) (set_pc q c).
Proof. intros []. split; cbn; assumption. Qed.
Lemma R_gas f c g : R f c -> R (with_gas g f) (set_gas g c).
Proof. intros []. split; cbn; auto. Qed.
Lemma R_stack f c s : R f c -> Forall is_word s -> R (with_stack s f) (set_stack s c).
Proof. intros [] ?. split; cbn; auto. Qed.
Lemma R_world f c w : R f c -> R (with_world w f) (set_world w c).
Proof. intros []. split; cbn; auto. Qed.
Lemma R_refund f c d : R f c -> R (add_refund d f) (set_refund (c_refund c + d) c).
Proof. intros []. split; cbn; auto. congruence. Qed.
Lemma R_ret f c r : R f c -> Forall is_byte r -> zlen r < 2 ^ 63 -> R (with_ret r f) (set_ret r c).
Proof. intros [] ? ?. split; cbn; auto. Qed.
Lemma fine_gas f g : fine f -> 0 <= g <= f_gas f -> fine (with_gas g f).
Proof. intros [] ?. split; cbn [f_gas with_gas f_active f_refund]; lia. Qed.

(** ** Gas *)
Lemma useGas_ok (Q : res oc -> Prop) a c k : 0 <= c_gas c -> 0 <= a ->
  (a <= c_gas c -> Q (k (set_gas (c_gas c - a) c))) -> (c_gas c < a -> Q (err c)) -> Q (useGas a c k).
Proof.
  intros hg ha h1 h2. unfold useGas. destruct (Z.ltb_spec (c_gas c) 0); [lia|]. destruct (Z.ltb_spec a 0); [lia|].
  destruct (Z.ltb_spec (c_gas c) a); cbn; auto.
Qed.

(** ** Memory *)
Lemma big_access act off n g : 0 <= act -> 0 <= off -> 0 < n -> 2 ^ 37 - 32 < 32 * words (off + n) -> g + Gmem act < 2 ^ 54 ->
  g < Gmem (expand act off n) - Gmem act.
Proof.
  intros ha ho hn hb hg. unfold expand. destruct (Z.eqb_spec n 0); [lia|].
  set (e := Z.max act (32 * words (off + n))). assert (he : 2 ^ 37 - 32 < e) by (unfold e; lia).
  destruct (Z_lt_ge_dec (Gmem e) (2 ^ 54)) as [hlt|]; [|lia].
  assert (h1 : 2 ^ 32 - 1 < words (off + n)) by lia.
  pose proof (words_small e ltac:(lia) hlt) as h2.
  assert (h3 : words (32 * words (off + n)) <= words e) by (apply words_le; unfold e; lia).
  rewrite words_mul in h3. lia.
Qed.

Lemma small_access act off n g : 0 <= act -> 0 <= off -> 0 < n -> act = 32 * words act -> Gmem (expand act off n) - Gmem act <= g -> g + Gmem act < 2 ^ 54 ->
  off + n <= 32 * words (off + n) <= 2 ^ 37 - 32 /\ expand act off n <= 2 ^ 37 - 32.
Proof.
  intros ha ho hn hact hc hg. pose proof (words_bound (off + n)).
  destruct (Z_le_gt_dec (32 * words (off + n)) (2 ^ 37 - 32)) as [hle|hgt].
  - split; [lia|]. unfold expand. destruct (Z.eqb_spec n 0); [lia|]. apply Z.max_lub; [|exact hle].
    assert (Gmem act < 2 ^ 54) by (assert (0 <= g) by (pose proof (fee_nonneg act off n ha); lia); lia).
    pose proof (size_small act ha H0). pose proof (words_small act ha H0). lia.
  - pose proof (big_access act off n g ha ho hn ltac:(lia) hg). lia.
Qed.

Definition slice_of (off n : Z) : Z * Z := if n =? 0 then (0, 0) else (off, n).

Record sliced (f : frame) (off n : Z) (c c' : ctx) : Prop := mkSliced {
  sl_R : R (touch off n (with_gas (f_gas f - mem_fee f off n) f)) c';
  sl_pc : c_pc c' = c_pc c;
  sl_in : fst (slice_of off n) + snd (slice_of off n) <= zlen (c_store c');
  sl_bytes : bytesOf (slice_of off n) c' = read_bytes (f_mem f) off n;
  sl_small : n <= 2 ^ 37;
}.

Lemma expand_idem a off n : expand (expand a off n) off n = expand a off n.
Proof. unfold expand. destruct (n =? 0); [reflexivity|]. lia. Qed.

Lemma getSlice_ok (Q : res oc -> Prop) f c off n k : R f c -> 0 <= f_gas f -> f_gas f + Gmem (f_active f) < 2 ^ 54 -> is_word off -> is_word n ->
  (forall c', mem_fee f off n <= f_gas f -> sliced f off n c c' -> Q (k (slice_of off n) c')) ->
  (f_gas f < mem_fee f off n -> forall c', Q (err c')) ->
  Q (getSlice off n c k).
Proof.
  intros hR hg0 hgm ho hn hk he. pose proof (r_len _ _ hR) as hlen. pose proof (r_gas _ _ hR) as hgas.
  assert (ha : 0 <= f_active f) by (rewrite <- hlen; apply zlen_nonneg).
  unfold is_word in ho, hn. unfold getSlice. destruct (Z.eqb_spec n 0) as [->|hnz].
  - assert (E : mem_fee f off 0 = 0) by (unfold mem_fee, expand; cbn; lia).
    specialize (hk c). unfold slice_of in hk. rewrite Z.eqb_refl in hk. apply hk; [lia|].
    split; [|reflexivity|cbn; pose proof (zlen_nonneg (c_store c)); lia| |lia].
    + rewrite E. replace (touch off 0 (with_gas (f_gas f - 0) f)) with f; [exact hR|].
      destruct f; unfold touch, with_active, with_gas, expand; cbn. rewrite Z.sub_0_r. reflexivity.
    + unfold slice_of. rewrite Z.eqb_refl. reflexivity.
  - unfold isUint64. destruct (Z.ltb_spec off (2 ^ 64)) as [ho64|ho64]; cbn [negb orb].
    2:{ apply he. apply big_access; try lia. pose proof (words_bound (off + n)). lia. }
    destruct (Z.ltb_spec n (2 ^ 64)) as [hn64|hn64]; cbn [negb orb].
    2:{ apply he. apply big_access; try lia. pose proof (words_bound (off + n)). lia. }
    rewrite !u64_small by lia. unfold expandMemory. destruct (Z.eqb_spec n 0); [lia|].
    destruct (Z_lt_ge_dec (off + n) (2 ^ 64)) as [hs|hs].
    2:{ assert (E : u64 (off + n) = off + n - 2 ^ 64).
        { unfold u64. rewrite <- (Z.mod_small (off + n - 2 ^ 64) (2 ^ 64)) by lia. rewrite <- (Z_mod_plus_full (off + n) (-1) (2 ^ 64)). f_equal. }
        rewrite E. destruct (Z.ltb_spec (off + n - 2 ^ 64) off); [|lia].
        apply he. apply big_access; try lia. pose proof (words_bound (off + n)). lia. }
    rewrite (u64_small (off + n)) by lia. destruct (Z.ltb_spec (off + n) off); [lia|].
    pose proof (words_bound (off + n)) as hwb.
    destruct (Z.ltb_spec (zlen (c_store c)) (off + n)) as [hgrow|hfit].
    + unfold getExpansionCostsAndSize. destruct (Z.leb_spec (off + n) (zlen (c_store c))); [lia|].
      rewrite sizeInWords_words by lia.
      assert (hw : 0 <= words (off + n) <= 2 ^ 59) by (apply words_range; lia).
      destruct (Z_le_gt_dec (32 * words (off + n)) (2 ^ 37 - 32)) as [hle|hgt].
      * replace (u64 (words (off + n) * 32)) with (32 * words (off + n)) by (rewrite u64_small; lia).
        destruct (Z.ltb_spec (32 * words (off + n)) (off + n)); [lia|].
        unfold maxMemoryExpansionSize. destruct (Z.ltb_spec 137438953440 (32 * words (off + n))); [lia|].
        assert (hex : expand (f_active f) off n = 32 * words (off + n)).
        { unfold expand. destruct (Z.eqb_spec n 0); [lia|]. lia. }
        assert (hG : s64 (u64 (u64 (words (off + n) * words (off + n)) / 512 + 3 * words (off + n))) = Gmem (expand (f_active f) off n)).
        { rewrite hex. unfold Gmem. rewrite words_mul.
          assert (words (off + n) * words (off + n) <= 2 ^ 32 * 2 ^ 32) by (apply Z.mul_le_mono_nonneg; lia).
          assert (words (off + n) * words (off + n) < 2 ^ 64).
          { apply Z.le_lt_trans with ((2 ^ 32 - 1) * (2 ^ 32 - 1)); [apply Z.mul_le_mono_nonneg; lia|lia]. }
          rewrite (u64_small (words (off + n) * words (off + n))) by lia.
          assert (0 <= words (off + n) * words (off + n) / 512 <= 2 ^ 55).
          { split; [apply Z.div_pos; lia|]. apply Z.le_trans with (2 ^ 64 / 512); [apply Z.div_le_mono; lia|]. vm_compute. discriminate. }
          rewrite u64_small by lia. rewrite s64_small by lia. lia. }
        rewrite hG. rewrite (r_cost _ _ hR). fold (mem_fee f off n).
        assert (hfee : 0 <= mem_fee f off n) by (apply fee_nonneg; lia).
        apply (useGas_ok Q); [lia|exact hfee| |intros hlt; apply he; lia].
        intros hpay. cbv beta. cbn [c_store set_store set_cost set_gas].
        rewrite zlen_app, zlen_zeros.
        destruct (Z.leb_spec (off + n) (zlen (c_store c) + Z.max 0 (32 * words (off + n) - zlen (c_store c)))); [|lia].
        assert (hsl : slice_of off n = (off, n)) by (unfold slice_of; destruct (Z.eqb_spec n 0); [lia|reflexivity]).
        rewrite <- hsl. apply hk; [lia|].
        assert (hdata : forall a, 0 <= a -> data_at (c_store c ++ zeros (32 * words (off + n) - zlen (c_store c))) a = f_mem f a).
        { intros a hpos. rewrite data_at_app by lia. rewrite (r_mem _ _ hR) by lia. destruct (Z.ltb_spec a (zlen (c_store c))); [reflexivity|].
          rewrite data_at_zeros. rewrite data_at_out by lia. reflexivity. }
        assert (hbytes : Forall is_byte (c_store c ++ zeros (32 * words (off + n) - zlen (c_store c)))).
        { apply Forall_app. split; [apply (r_bytes _ _ hR)|]. unfold zeros. apply Forall_forall. intros x hx. apply repeat_spec in hx. subst x. unfold is_byte. lia. }
        split.
        -- destruct hR. split; cbn [c_gas c_refund c_stack c_ret c_world c_store c_cost set_store set_cost set_gas
             f_gas f_refund f_stack f_ret f_world f_active f_mem touch with_active with_gas]; try assumption.
           ++ lia.
           ++ rewrite zlen_app, zlen_zeros, hex. lia.
           ++ unfold mem_fee. lia.
           ++ apply expand_words. assumption.
           ++ intros a hpos. symmetry. apply hdata. exact hpos.
        -- reflexivity.
        -- rewrite hsl. cbn [fst snd c_store set_store set_cost set_gas]. rewrite zlen_app, zlen_zeros. lia.
        -- rewrite hsl. unfold bytesOf. cbn [fst snd c_store set_store set_cost set_gas].
           rewrite slice_read by (rewrite ?zlen_app, ?zlen_zeros; lia).
           apply read_bytes_ext; [lia|]. intros i hi. apply hdata. lia.
        -- lia.
      * assert (hbig : f_gas f < mem_fee f off n) by (apply big_access; lia).
        destruct (Z.ltb_spec (u64 (words (off + n) * 32)) (off + n)) as [|hvs]; [apply he; exact hbig|].
        destruct (Z.ltb_spec maxMemoryExpansionSize (u64 (words (off + n) * 32))) as [|hmm]; [apply he; exact hbig|].
        exfalso. unfold maxMemoryExpansionSize in hmm.
        destruct (Z_lt_ge_dec (words (off + n) * 32) (2 ^ 64)); [rewrite u64_small in hmm by lia; lia|].
        assert (E59 : words (off + n) = 2 ^ 59) by lia. rewrite E59 in hvs. change (u64 (2 ^ 59 * 32)) with 0 in hvs. lia.
    + (* already large enough *)
      assert (hex : expand (f_active f) off n = f_active f).
      { unfold expand. destruct (Z.eqb_spec n 0); [lia|]. rewrite (r_act _ _ hR). rewrite (r_act _ _ hR) in hlen.
        assert (words (off + n) <= words (f_active f)) by (rewrite (r_act _ _ hR); rewrite words_mul; rewrite <- (words_mul (words (f_active f))); apply words_le; lia).
        lia. }
      assert (hfee : mem_fee f off n = 0) by (unfold mem_fee; rewrite hex; lia).
      destruct (Z.leb_spec (off + n) (zlen (c_store c))); [|lia].
      assert (hsl : slice_of off n = (off, n)) by (unfold slice_of; destruct (Z.eqb_spec n 0); [lia|reflexivity]).
      rewrite <- hsl. apply hk; [lia|]. split.
      * rewrite hfee. replace (touch off n (with_gas (f_gas f - 0) f)) with f; [exact hR|].
        destruct f; unfold touch, with_active, with_gas; cbn in *. rewrite hex, Z.sub_0_r. reflexivity.
      * reflexivity.
      * rewrite hsl. cbn. lia.
      * rewrite hsl. unfold bytesOf. cbn [fst snd]. rewrite slice_read by lia. apply read_bytes_ext; [lia|].
        intros i hi. symmetry. apply (r_mem _ _ hR). lia.
      * assert (hlt : Gmem (f_active f) < 2 ^ 54) by lia. pose proof (size_small _ ha hlt). lia.
Qed.

Lemma nth_splice (l xs : list Z) i a : 0 <= i -> i + zlen xs <= zlen l -> 0 <= a ->
  data_at (splice l i xs) a = if (i <=? a) && (a <? i + zlen xs) then data_at xs (a - i) else data_at l a.
Proof.
  intros hi hl ha. unfold splice.
  assert (hz : zlen (firstn (Z.to_nat i) l) = i) by (rewrite zlen_firstn by lia; pose proof (zlen_nonneg xs); lia).
  pose proof (zlen_nonneg xs) as hxs.
  rewrite data_at_app by lia. rewrite hz. destruct (Z.ltb_spec a i).
  - destruct (Z.leb_spec i a); [lia|]. cbn. rewrite data_at_firstn by lia. destruct (Z.ltb_spec a i); [reflexivity|lia].
  - destruct (Z.leb_spec i a); [|lia]. rewrite data_at_app by lia. cbn. destruct (Z.ltb_spec (a - i) (zlen xs)).
    + destruct (Z.ltb_spec a (i + zlen xs)); [reflexivity|lia].
    + destruct (Z.ltb_spec a (i + zlen xs)); [lia|].
      replace (Z.to_nat i + length xs)%nat with (Z.to_nat (i + zlen xs)) by (unfold zlen; lia).
      rewrite data_at_skipn by lia. f_equal. lia.
Qed.
Lemma splice_zlen (l xs : list Z) i : 0 <= i -> i + zlen xs <= zlen l -> zlen (splice l i xs) = zlen l.
Proof.
  intros hi hl. unfold splice. pose proof (zlen_nonneg xs). rewrite !zlen_app. rewrite zlen_firstn by lia.
  replace (Z.to_nat i + length xs)%nat with (Z.to_nat (i + zlen xs)) by (unfold zlen; lia).
  rewrite zlen_skipn by lia. lia.
Qed.
Lemma copyInto_R f c off n src : R f c -> Forall is_byte src -> 0 <= off -> 0 <= n -> fst (slice_of off n) + snd (slice_of off n) <= zlen (c_store c) ->
  R (with_mem (write_bytes (f_mem f) off (firstn (Z.to_nat n) src)) f) (copyInto (slice_of off n) src c).
Proof.
  intros hR hs ho hn hin. unfold copyInto, slice_of in *. destruct (Z.eqb_spec n 0) as [->|hnz].
  - cbn [fst snd] in *. change (firstn (Z.to_nat 0) src) with (@nil Z). change (splice (c_store c) 0 []) with (c_store c). destruct hR. split; cbn [c_gas c_refund c_stack c_ret c_world c_store c_cost set_store f_gas f_refund f_stack f_ret f_world f_active f_mem with_mem]; try assumption.
    + intros a hpos. change (splice (c_store c) 0 []) with (c_store c). unfold write_bytes. change (zlen (@nil Z)) with 0. rewrite Z.add_0_r. destruct (Z.leb_spec off a), (Z.ltb_spec a off); cbn; try lia; apply r_mem0; exact hpos.
  - cbn [fst snd] in *. assert (hl : zlen (firstn (Z.to_nat n) src) <= n) by (rewrite zlen_firstn by lia; lia).
    assert (hb : Forall is_byte (firstn (Z.to_nat n) src)) by (apply Forall_firstn'; exact hs).
    destruct hR. split; cbn [c_gas c_refund c_stack c_ret c_world c_store c_cost set_store f_gas f_refund f_stack f_ret f_world f_active f_mem with_mem]; try assumption.
    + rewrite splice_zlen by lia. assumption.
    + intros a hpos. rewrite nth_splice by lia. unfold write_bytes. destruct (Z.leb_spec off a), (Z.ltb_spec a (off + zlen (firstn (Z.to_nat n) src))); cbn; try (apply r_mem0; exact hpos).
      rewrite data_at_nth by lia. reflexivity.
    + unfold splice. apply Forall_app. split; [apply Forall_firstn'; assumption|]. apply Forall_app. split; [exact hb|apply Forall_skipn'; assumption].
Qed.
End Rel.
