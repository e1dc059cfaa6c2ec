(** Facts about memory: the vector of Memory.v against the memory function of SpecEvm.v, and the
    expansion cost of interpreter.cc:1878-1917 against the quadratic cost. *)
From Verif Require Import Base Host Uint256 Memory Opcodes Interp SpecEvm ArithFacts.
From Coq Require Import Lia ZArith List Bool.

(** ** Lists accessed by [data_at] *)
Lemma zlen_nonneg {A} (l : list A) : 0 <= zlen l. Proof. unfold zlen; lia. Qed.
Lemma zlen_app {A} (l l' : list A) : zlen (l ++ l') = zlen l + zlen l'.
Proof. unfold zlen. rewrite app_length. lia. Qed.
Lemma zlen_cons {A} (x : A) l : zlen (x :: l) = zlen l + 1.
Proof. unfold zlen. cbn [length]. lia. Qed.
Lemma zlen_nil {A} : zlen (@nil A) = 0. Proof. reflexivity. Qed.
Lemma zlen_firstn {A} n (l : list A) : 0 <= n -> zlen (firstn (Z.to_nat n) l) = Z.min n (zlen l).
Proof. unfold zlen. intros. rewrite firstn_length. lia. Qed.
Lemma zlen_skipn {A} n (l : list A) : 0 <= n -> zlen (skipn (Z.to_nat n) l) = Z.max 0 (zlen l - n).
Proof. unfold zlen. intros. rewrite skipn_length. lia. Qed.
Lemma zlen_zeros n : zlen (zeros n) = Z.max 0 n.
Proof. unfold zlen, zeros. rewrite repeat_length. lia. Qed.
Lemma zlen_0_nil {A} (l : list A) : zlen l = 0 -> l = [].
Proof. destruct l; [reflexivity|]. rewrite zlen_cons. pose proof (zlen_nonneg l). lia. Qed.
Lemma zlen_map {A B} (f : A -> B) l : zlen (map f l) = zlen l.
Proof. unfold zlen. rewrite map_length. reflexivity. Qed.
Lemma zlen_seq s n : zlen (seq s n) = Z.of_nat n.
Proof. unfold zlen. rewrite seq_length. reflexivity. Qed.

Lemma data_at_in l i : 0 <= i < zlen l -> data_at l i = nth (Z.to_nat i) l 0.
Proof.
  intros. unfold data_at. destruct (Z.leb_spec 0 i), (Z.ltb_spec i (zlen l)); try lia. reflexivity.
Qed.
Lemma data_at_out l i : zlen l <= i -> data_at l i = 0.
Proof. intros. unfold data_at. destruct (Z.ltb_spec i (zlen l)); [lia|]. rewrite andb_false_r. reflexivity. Qed.
Lemma data_at_nth l i : 0 <= i -> data_at l i = nth (Z.to_nat i) l 0.
Proof.
  intros. destruct (Z_lt_ge_dec i (zlen l)); [apply data_at_in; lia|].
  rewrite data_at_out by lia. rewrite nth_overflow; [reflexivity|]. unfold zlen in *. lia.
Qed.
Lemma data_at_byte l i : Forall is_byte l -> is_byte (data_at l i).
Proof.
  intros H. unfold data_at. destruct ((0 <=? i) && (i <? zlen l)) eqn:E; [|unfold is_byte; lia].
  apply andb_true_iff in E as [E1 E2]. apply Z.leb_le in E1. apply Z.ltb_lt in E2.
  rewrite Forall_forall in H. apply H, nth_In. unfold zlen in *. lia.
Qed.
Lemma data_at_app l1 l2 i : 0 <= i ->
  data_at (l1 ++ l2) i = if i <? zlen l1 then data_at l1 i else data_at l2 (i - zlen l1).
Proof.
  intros. destruct (Z.ltb_spec i (zlen l1)).
  - rewrite !data_at_nth by lia. apply app_nth1. unfold zlen in *; lia.
  - rewrite !data_at_nth by lia. rewrite app_nth2 by (unfold zlen in *; lia). f_equal. unfold zlen in *; lia.
Qed.
Lemma nth_firstn {A} n i (l : list A) d : (i < n)%nat -> nth i (firstn n l) d = nth i l d.
Proof. revert i l; induction n; intros i l H; [lia|]. destruct l; [reflexivity|]. destruct i; cbn; [reflexivity|]. apply IHn; lia. Qed.
Lemma nth_skipn' {A} n i (l : list A) d : nth i (skipn n l) d = nth (n + i) l d.
Proof. revert l; induction n; intros l; [reflexivity|]. destruct l; cbn; [destruct i; reflexivity|]. apply IHn. Qed.
Lemma data_at_firstn l n i : 0 <= i -> 0 <= n ->
  data_at (firstn (Z.to_nat n) l) i = if i <? n then data_at l i else 0.
Proof.
  intros. destruct (Z.ltb_spec i n).
  - rewrite !data_at_nth by lia. apply nth_firstn. lia.
  - apply data_at_out. rewrite zlen_firstn; lia.
Qed.
Lemma data_at_skipn l n i : 0 <= i -> 0 <= n -> data_at (skipn (Z.to_nat n) l) i = data_at l (n + i).
Proof.
  intros. rewrite !data_at_nth by lia. rewrite nth_skipn'. f_equal. lia.
Qed.
Lemma data_at_zeros n i : data_at (zeros n) i = 0.
Proof.
  unfold data_at. destruct ((0 <=? i) && (i <? zlen (zeros n))) eqn:E; [|reflexivity].
  unfold zeros. apply nth_repeat.
Qed.
Lemma data_at_map_seq (m : Z -> Z) n i : 0 <= i < n ->
  data_at (map (fun k => m (Z.of_nat k)) (seq 0 (Z.to_nat n))) i = m i.
Proof.
  intros. rewrite data_at_nth by lia.
  rewrite nth_indep with (d' := (fun k => m (Z.of_nat k)) 0%nat) by (rewrite map_length, seq_length; lia).
  rewrite (map_nth (fun k => m (Z.of_nat k))), seq_nth by lia. f_equal. lia.
Qed.
Lemma list_data_ext l l' : zlen l = zlen l' -> (forall i, 0 <= i < zlen l -> data_at l i = data_at l' i) -> l = l'.
Proof.
  intros Hl H. apply nth_ext with 0 0; [unfold zlen in *; lia|]. intros n Hn.
  specialize (H (Z.of_nat n) ltac:(unfold zlen; lia)). rewrite !data_at_nth, Nat2Z.id in H by lia. exact H.
Qed.
Lemma read_bytes_zlen m off n : zlen (read_bytes m off n) = Z.max 0 n.
Proof. unfold read_bytes. rewrite zlen_map, zlen_seq. lia. Qed.
Lemma read_bytes_at m off n i : 0 <= i < n -> data_at (read_bytes m off n) i = m (off + i).
Proof. intros. unfold read_bytes. apply (data_at_map_seq (fun k => m (off + k))). lia. Qed.
Lemma data_bytes_read d off n : data_bytes d off n = read_bytes (data_at d) off n.
Proof. reflexivity. Qed.
Lemma data_bytes_zlen d off n : zlen (data_bytes d off n) = Z.max 0 n.
Proof. rewrite data_bytes_read. apply read_bytes_zlen. Qed.
Lemma read_bytes_ext m m' off n : 0 <= off -> (forall i, 0 <= i -> m i = m' i) ->
  read_bytes m off n = read_bytes m' off n.
Proof. intros Ho H. unfold read_bytes. apply map_ext. intros. apply H. lia. Qed.
Lemma read_bytes_nil m off n : n <= 0 -> read_bytes m off n = [].
Proof. intros. unfold read_bytes. replace (Z.to_nat n) with 0%nat by lia. reflexivity. Qed.
Lemma read_bytes_byte m off n : (forall i, off <= i -> is_byte (m i)) -> Forall is_byte (read_bytes m off n).
Proof. intros. unfold read_bytes. apply Forall_forall. intros x Hx. apply in_map_iff in Hx as (k & <- & _). apply H. lia. Qed.
Lemma data_bytes_byte d off n : Forall is_byte d -> Forall is_byte (data_bytes d off n).
Proof. intros. rewrite data_bytes_read. apply read_bytes_byte. intros. apply data_at_byte. assumption. Qed.

Lemma slice_read l p n : 0 <= p -> 0 <= n -> p + n <= zlen l -> slice l p n = read_bytes (data_at l) p n.
Proof.
  intros. apply list_data_ext.
  - rewrite read_bytes_zlen, slice_zlen; lia.
  - rewrite slice_zlen by lia. intros i Hi. rewrite read_bytes_at by lia. unfold slice.
    rewrite data_at_firstn, data_at_skipn by lia. destruct (Z.ltb_spec i n); [reflexivity|lia].
Qed.

(** the n bytes at offset off: what there is, then zeros *)
Lemma data_bytes_pad d off n : 0 <= off -> 0 <= n ->
  data_bytes d off n =
  firstn (Z.to_nat (Z.min (zlen (skipn (Z.to_nat off) d)) n)) (skipn (Z.to_nat off) d)
  ++ zeros (n - Z.min (zlen (skipn (Z.to_nat off) d)) n).
Proof.
  intros Ho Hn. pose proof (zlen_nonneg (skipn (Z.to_nat off) d)) as Hnn.
  set (v := skipn (Z.to_nat off) d) in *.
  apply list_data_ext.
  - rewrite data_bytes_zlen, zlen_app, zlen_firstn, zlen_zeros by lia. lia.
  - rewrite data_bytes_zlen. intros i Hi. rewrite data_bytes_read, read_bytes_at by lia.
    rewrite data_at_app, zlen_firstn by lia. rewrite data_at_zeros.
    rewrite <- data_at_skipn by lia. fold v.
    rewrite data_at_firstn by lia.
    destruct (Z.ltb_spec i (Z.min (Z.min (zlen v) n) (zlen v))).
    + destruct (Z.ltb_spec i (Z.min (zlen v) n)); [reflexivity|lia].
    + apply data_at_out. lia.
Qed.

(** ** The memory relation *)
Record mem_rel (m : memory) (g : Z -> Z) (a : Z) : Prop := mkMemRel {
  mr_size : zlen m = a;
  mr_words : a = 32 * words a;
  mr_bytes : Forall is_byte m;
  mr_at : forall i, 0 <= i -> g i = data_at m i;
}.

Lemma words_le a b : a <= b -> words a <= words b.
Proof. intros. unfold words. apply Z.div_le_mono; lia. Qed.
Lemma words_mul k : words (32 * k) = k.
Proof. unfold words. replace (32 * k + 31) with (31 + k * 32) by lia. rewrite Z.div_add by lia. reflexivity. Qed.
Lemma words_nonneg a : 0 <= a -> 0 <= words a.
Proof. intros. unfold words. apply Z.div_pos; lia. Qed.
Lemma words_bound a : a <= 32 * words a < a + 32.
Proof. unfold words. pose proof (Z.div_mod (a + 31) 32 ltac:(lia)). pose proof (Z.mod_pos_bound (a + 31) 32 ltac:(lia)). lia. Qed.

Lemma mr_nonneg m g a : mem_rel m g a -> 0 <= a.
Proof. intros []. rewrite <- mr_size0. apply zlen_nonneg. Qed.

Lemma expand_ge a off n : a <= expand a off n.
Proof. unfold expand. destruct (n =? 0); lia. Qed.
Lemma expand_words a off n : a = 32 * words a -> expand a off n = 32 * words (expand a off n).
Proof.
  intros. unfold expand. destruct (n =? 0); [assumption|].
  destruct (Z.max_spec a (32 * words (off + n))) as [[? ->]|[? ->]].
  - rewrite words_mul. reflexivity.
  - assumption.
Qed.
Lemma Gmem_mono a b : 0 <= a <= b -> Gmem a <= Gmem b.
Proof.
  intros. unfold Gmem. pose proof (words_le a b ltac:(lia)). pose proof (words_nonneg a ltac:(lia)).
  assert (words a * words a / 512 <= words b * words b / 512) by (apply Z.div_le_mono; nia). lia.
Qed.
Lemma Gmem_nonneg a : 0 <= a -> 0 <= Gmem a.
Proof. intros. unfold Gmem. pose proof (words_nonneg a H). assert (0 <= words a * words a / 512) by (apply Z.div_pos; nia). lia. Qed.
Lemma Gmem_0 : Gmem 0 = 0. Proof. reflexivity. Qed.

Lemma words_small a : 0 <= a -> Gmem a < 2 ^ 54 -> words a < 2 ^ 32.
Proof.
  intros H0 H. unfold Gmem in H. pose proof (words_nonneg a H0).
  destruct (Z_lt_ge_dec (words a) (2 ^ 32)) as [|Hge]; [assumption|exfalso].
  assert (2 ^ 32 * 2 ^ 32 / 512 <= words a * words a / 512).
  { apply Z.div_le_mono; [lia|]. unpow. nia. }
  change (2 ^ 32 * 2 ^ 32 / 512) with 36028797018963968 in H2. unpow. lia.
Qed.
Lemma size_small a : 0 <= a -> Gmem a < 2 ^ 54 -> a < 2 ^ 37.
Proof.
  intros. pose proof (words_small a H H0). pose proof (words_bound a). change (2 ^ 37) with (32 * 2 ^ 32). lia.
Qed.
(** the square of the number of words fits in 63 bits when the cost is below 2^54 *)
Lemma words_square_small a : 0 <= a -> Gmem a < 2 ^ 54 -> words a * words a < 2 ^ 63.
Proof.
  intros H0 H. unfold Gmem in H. pose proof (words_nonneg a H0).
  pose proof (Z.div_mod (words a * words a) 512 ltac:(lia)).
  pose proof (Z.mod_pos_bound (words a * words a) 512 ltac:(lia)). unpow. lia.
Qed.

Lemma s64_small z : 0 <= z < 2 ^ 63 -> s64 z = z.
Proof. intros. unfold s64. rewrite Z.mod_small by (unpow; lia). destruct (Z.ltb_spec z (2 ^ 63)); lia. Qed.
Lemma i64_ok z : - 2 ^ 63 <= z < 2 ^ 63 -> i64 z = Ok z.
Proof. intros. unfold i64, in_i64. destruct (Z.leb_spec (- 2 ^ 63) z), (Z.ltb_spec z (2 ^ 63)); try lia. reflexivity. Qed.
Lemma u64_small z : 0 <= z < 2 ^ 64 -> u64 z = z.
Proof. intros. apply Z.mod_small. assumption. Qed.
Lemma u64_range z : 0 <= u64 z < 2 ^ 64.
Proof. apply Z.mod_pos_bound. reflexivity. Qed.

Lemma word_size_spec n : 0 <= n <= 2 ^ 64 - 32 -> word_size n = words n.
Proof.
  intros. unfold word_size, words. rewrite u64_small by (unpow; lia). apply s64_small.
  split; [apply Z.div_pos; lia|]. apply Z.div_lt_upper_bound; unpow; lia.
Qed.
Lemma word_size_range n : 0 <= word_size n < 2 ^ 59.
Proof.
  unfold word_size. pose proof (u64_range (n + 31)).
  assert (0 <= u64 (n + 31) / 32 < 2 ^ 59).
  { split; [apply Z.div_pos; lia|]. apply Z.div_lt_upper_bound; [lia|]. change (32 * 2 ^ 59) with (2 ^ 64). lia. }
  rewrite s64_small; [assumption|]. change (2 ^ 59) with 576460752303423488 in *. unpow. lia.
Qed.

Lemma calc_memory_cost_spec n : 0 <= n < 2 ^ 64 ->
  calc_memory_cost n =
  Ok (if (n + 31 <? 2 ^ 64) && (words n * words n <? 2 ^ 63) then Gmem n else kMaxGas).
Proof.
  intros Hn. unfold calc_memory_cost, add_overflow_u64.
  destruct (Z.ltb_spec (n + 31) (2 ^ 64)) as [H|H]; cbn [negb andb]; [|reflexivity].
  rewrite Z.mod_small by lia. fold (words n).
  assert (0 <= words n < 2 ^ 59).
  { split; [apply words_nonneg; lia|]. unfold words. apply Z.div_lt_upper_bound; [lia|]. change (32 * 2 ^ 59) with (2 ^ 64). lia. }
  change (2 ^ 59) with 576460752303423488 in *.
  rewrite s64_small by (unpow; lia). unfold mul_overflow_i64, in_i64.
  destruct (Z.leb_spec (- 2 ^ 63) (words n * words n)); [|unpow; nia].
  destruct (Z.ltb_spec (words n * words n) (2 ^ 63)) as [Hs|Hs]; cbn [andb negb]; [|reflexivity].
  rewrite i64_ok by (unpow; lia). cbn [rbind]. rewrite s64_small by nia.
  rewrite Z.quot_div_nonneg by nia.
  assert (0 <= words n * words n / 512 < 2 ^ 54).
  { split; [apply Z.div_pos; nia|]. apply Z.div_lt_upper_bound; [lia|]. change (512 * 2 ^ 54) with (2 ^ 63). lia. }
  rewrite i64_ok by (unpow; lia). unfold Gmem. f_equal. lia.
Qed.

Lemma Gmem_big n : 0 <= n -> 2 ^ 63 <= words n * words n -> 2 ^ 54 <= Gmem n.
Proof.
  intros H0 H. unfold Gmem. pose proof (words_nonneg n H0).
  assert (2 ^ 54 <= words n * words n / 512).
  { apply Z.div_le_lower_bound; [lia|]. change (512 * 2 ^ 54) with (2 ^ 63). lia. }
  lia.
Qed.

(** The key fact (C10): for a frame with [g] gas in which memory of [a] bytes is active, the
    charge computed in 64-bit arithmetic is affordable iff the exact one is, and then equal. *)
Lemma memory_expansion_cost_spec a off n g :
  a = 32 * words a -> 0 <= a -> 0 <= off < 2 ^ 256 -> 0 <= n < 2 ^ 256 -> 0 <= g -> g + Gmem a < 2 ^ 54 ->
  exists c o k, memory_expansion_cost a off n = Ok (c, o, k) /\ 0 <= c <= kMaxGas /\
    0 <= o < 2 ^ 64 /\ 0 <= k < 2 ^ 64 /\
    (Gmem (expand a off n) - Gmem a <= g ->
       c = Gmem (expand a off n) - Gmem a /\ k = n /\ (n <> 0 -> o = off /\ 0 <= off + n < 2 ^ 37)) /\
    (g < Gmem (expand a off n) - Gmem a -> g < c) /\
    (n = 0 -> c = 0).
Proof.
  intros Ha Ha0 Hoff Hn Hg Hgm. unfold memory_expansion_cost.
  assert (0 <= kMaxGas <= kMaxGas /\ g < kMaxGas) as [HK HKg].
  { unfold kMaxGas. pose proof (Gmem_nonneg a Ha0). unpow. lia. }
  (* the exact fee is unaffordable as soon as the end of the range is at least 2^63 *)
  assert (forall x, n <> 0 -> 2 ^ 63 <= off + n -> x <= g + Gmem a -> ~ (Gmem (expand a off n) <= x)) as Hbig.
  { intros x Hn0 Hb Hx Hle. unfold expand in Hle. destruct (Z.eqb_spec n 0); [lia|].
    pose proof (Gmem_mono (2 ^ 63) (Z.max a (32 * words (off + n)))) as HM.
    pose proof (words_bound (off + n)). specialize (HM ltac:(unpow; lia)).
    assert (2 ^ 54 <= Gmem (2 ^ 63)) by (vm_compute; discriminate). lia. }
  unfold kU64Max in *.
  destruct (Z.ltb_spec (2 ^ 64 - 1) n) as [Hn64|Hn64]; cbn [orb].
  { exists kMaxGas, 0, 0. split; [reflexivity|]. split; [lia|]. split; [unpow; lia|]. split; [unpow; lia|].
    split; [|split]; intros; [|lia|unpow; lia].
    exfalso. apply (Hbig (g + Gmem a)); unpow; lia. }
  destruct (Z.ltb_spec (2 ^ 64 - 1) off) as [Ho64|Ho64]; cbn [andb].
  { destruct (Z.eqb_spec n 0) as [->|Hn0]; cbn [negb].
    - change (u64 0) with 0. cbn [Z.eqb]. exists 0, (u64 off), 0. split; [reflexivity|].
      split; [lia|]. split; [apply u64_range|]. split; [unpow; lia|].
      unfold expand. cbn [Z.eqb]. split; [|split]; intros; lia.
    - exists kMaxGas, 0, 0. split; [reflexivity|]. split; [lia|]. split; [unpow; lia|]. split; [unpow; lia|].
      split; [|split]; intros; [|lia|lia].
      exfalso. apply (Hbig (g + Gmem a)); unpow; lia. }
  rewrite !u64_small by lia.
  destruct (Z.eqb_spec n 0) as [->|Hn0].
  { exists 0, off, 0. unfold expand. cbn [Z.eqb]. split; [reflexivity|]. unpow. lia. }
  unfold add_overflow_u64. destruct (Z.ltb_spec (off + n) (2 ^ 64)) as [Hs|Hs]; cbn [negb].
  2:{ exists kMaxGas, off, n. split; [reflexivity|]. split; [lia|]. split; [unpow; lia|]. split; [unpow; lia|].
      split; [|split]; intros; [|lia|lia].
      exfalso. apply (Hbig (g + Gmem a)); unpow; lia. }
  rewrite Z.mod_small by lia.
  destruct (Z.leb_spec (off + n) a) as [Hle|Hgt].
  { assert (expand a off n = a) as ->.
    { unfold expand. destruct (Z.eqb_spec n 0); [lia|].
      pose proof (words_le (off + n) a Hle). lia. }
    exists 0, off, n. split; [reflexivity|]. split; [lia|]. split; [unpow; lia|]. split; [unpow; lia|].
    split; [|split]; intros; [|lia|lia]. split; [lia|]. split; [reflexivity|]. intros _. split; [reflexivity|].
    pose proof (size_small a Ha0). lia. }
  assert (expand a off n = 32 * words (off + n)) as E.
  { unfold expand. destruct (Z.eqb_spec n 0); [lia|]. pose proof (words_bound (off + n)). lia. }
  assert (Gmem (expand a off n) = Gmem (off + n)) as EG.
  { rewrite E. unfold Gmem. rewrite words_mul. reflexivity. }
  rewrite EG. rewrite calc_memory_cost_spec by lia. cbn [rbind].
  assert (Gmem a < 2 ^ 54) as Hga by lia.
  pose proof (words_square_small a Ha0 Hga) as Hsq. pose proof (size_small a Ha0 Hga) as Hsz.
  rewrite calc_memory_cost_spec by (change (2 ^ 37) with 137438953472 in *; unpow; lia). cbn [rbind].
  destruct (Z.ltb_spec (a + 31) (2 ^ 64)); [|change (2 ^ 37) with 137438953472 in *; unpow; lia].
  destruct (Z.ltb_spec (words a * words a) (2 ^ 63)); [|lia]. cbn [andb].
  pose proof (Gmem_nonneg a Ha0) as Hg0.
  assert (Gmem a <= Gmem (off + n)) as Hmon by (apply Gmem_mono; lia).
  destruct ((off + n + 31 <? 2 ^ 64) && (words (off + n) * words (off + n) <? 2 ^ 63)) eqn:Ec.
  - assert (Gmem (off + n) < 2 ^ 60) as Hub.
    { apply andb_true_iff in Ec as [Ec1 Ec2]. apply Z.ltb_lt in Ec1, Ec2. unfold Gmem.
      assert (words (off + n) * words (off + n) / 512 < 2 ^ 54).
      { apply Z.div_lt_upper_bound; [lia|]. change (512 * 2 ^ 54) with (2 ^ 63). lia. }
      assert (words (off + n) < 2 ^ 32) by (unpow; nia).
      change (2 ^ 60) with 1152921504606846976. unpow. lia. }
    change (2 ^ 60) with 1152921504606846976 in *.
    rewrite i64_ok by (unpow; lia). cbn [rbind].
    exists (Gmem (off + n) - Gmem a), off, n. split; [reflexivity|]. unfold kMaxGas in *.
    split; [unpow; lia|]. split; [unpow; lia|]. split; [unpow; lia|].
    split; [|split]; intros; [|lia|lia]. split; [reflexivity|]. split; [reflexivity|]. intros _.
    split; [reflexivity|]. pose proof (size_small (off + n) ltac:(lia) ltac:(lia)). lia.
  - assert (2 ^ 54 <= Gmem (off + n)) as Hlb.
    { apply andb_false_iff in Ec as [Ec|Ec]; apply Z.ltb_ge in Ec.
      - apply Z.le_trans with (Gmem (2 ^ 63)); [vm_compute; discriminate|]. apply Gmem_mono. unpow; lia.
      - apply Gmem_big; lia. }
    unfold kMaxGas in *. rewrite i64_ok by (unpow; lia). cbn [rbind].
    exists (2 ^ 63 - 1 - Gmem a), off, n. split; [reflexivity|].
    split; [unpow; lia|]. split; [unpow; lia|]. split; [unpow; lia|].
    split; [|split]; intros; [lia|unpow; lia|lia].
Qed.

(** ** Memory primitives *)
Lemma vec_resize_spec m n : 0 <= n < 2 ^ 63 - 1 -> zlen m <= n -> vec_resize m n = Ok (m ++ zeros (n - zlen m)).
Proof.
  intros. unfold vec_resize. destruct (Z.ltb_spec (2 ^ 63 - 1) n); [lia|]. rewrite firstn_all2; [reflexivity|].
  unfold zlen in *. lia.
Qed.

Lemma mem_grow_spec m g a off n : mem_rel m g a -> 0 <= n -> (n <> 0 -> 0 <= off /\ off + n < 2 ^ 62) ->
  exists m', mem_grow m off n = Ok m' /\ mem_rel m' g (expand a off n).
Proof.
  intros HR Hn Ho. unfold mem_grow, expand. destruct (Z.eqb_spec n 0); [exists m; auto|].
  specialize (Ho ltac:(assumption)). destruct HR as [E1 E2 E3 E4].
  rewrite (u64_small (off + n)) by (unpow; lia). unfold mem_size. rewrite E1.
  pose proof (words_bound (off + n)).
  destruct (Z.ltb_spec a (off + n)) as [Hlt|Hge].
  - rewrite (u64_small (off + n + 31)) by (unpow; lia). fold (words (off + n)).
    rewrite (Z.mul_comm (words (off + n)) 32). rewrite u64_small by (unpow; lia).
    rewrite vec_resize_spec by (unpow; lia). eexists; split; [reflexivity|].
    rewrite Z.max_r by lia. split.
    + rewrite zlen_app, zlen_zeros. lia.
    + rewrite words_mul. reflexivity.
    + apply Forall_app; split; [assumption|]. unfold zeros. apply Forall_forall. intros x Hx.
      apply repeat_spec in Hx. subst x. unfold is_byte; lia.
    + intros i Hi. rewrite E4 by assumption. rewrite data_at_app by assumption. rewrite data_at_zeros.
      destruct (Z.ltb_spec i (zlen m)); [reflexivity|]. apply data_at_out. lia.
  - exists m. split; [reflexivity|].
    assert (32 * words (off + n) <= a) by (rewrite E2; pose proof (words_le (off + n) a Hge); lia).
    rewrite Z.max_l by lia. split; assumption.
Qed.

Lemma mem_read_spec m g a p n : mem_rel m g a -> 0 <= n -> (n <> 0 -> 0 <= p /\ p + n <= a) ->
  mem_read m p n = Ok (read_bytes g p n).
Proof.
  intros HR Hn Hp. unfold mem_read. destruct (Z.eqb_spec n 0) as [->|]; [reflexivity|].
  specialize (Hp ltac:(assumption)). unfold mem_size. rewrite (mr_size _ _ _ HR).
  destruct (Z.leb_spec (p + n) a); [|lia]. f_equal.
  rewrite slice_read by (try rewrite (mr_size _ _ _ HR); lia). apply read_bytes_ext; [lia|].
  intros. symmetry. apply (mr_at _ _ _ HR). assumption.
Qed.

Lemma splice_zlen {A} (m : list A) p bs : 0 <= p -> p + zlen bs <= zlen m -> zlen (splice m p bs) = zlen m.
Proof.
  intros. unfold splice. rewrite !zlen_app, zlen_firstn by lia. unfold zlen in *. rewrite skipn_length. lia.
Qed.
Lemma splice_at m p bs i : 0 <= p -> p + zlen bs <= zlen m -> 0 <= i ->
  data_at (splice m p bs) i = if (p <=? i) && (i <? p + zlen bs) then data_at bs (i - p) else data_at m i.
Proof.
  intros Hp Hl Hi. unfold splice. rewrite data_at_app, zlen_firstn by lia. rewrite Z.min_l by (unfold zlen in *; lia).
  rewrite data_at_firstn by lia.
  destruct (Z.ltb_spec i p), (Z.leb_spec p i); try lia; cbn [andb]; [reflexivity|].
  rewrite data_at_app by lia. destruct (Z.ltb_spec (i - p) (zlen bs)), (Z.ltb_spec i (p + zlen bs)); try lia.
  replace (Z.to_nat p + length bs)%nat with (Z.to_nat (p + zlen bs)) by (unfold zlen; lia).
  rewrite data_at_skipn by (unfold zlen in *; lia). f_equal. lia.
Qed.

Lemma mem_write_spec m g a p bs : mem_rel m g a -> Forall is_byte bs -> (bs <> [] -> 0 <= p /\ p + zlen bs <= a) ->
  exists m', mem_write m p bs = Ok m' /\ mem_rel m' (write_bytes g p bs) a.
Proof.
  intros HR Hb Hp. destruct HR as [E1 E2 E3 E4]. unfold mem_write. destruct bs as [|b bs'].
  - exists m. split; [reflexivity|]. split; try assumption. intros i Hi. unfold write_bytes.
    rewrite zlen_nil. destruct (Z.leb_spec p i), (Z.ltb_spec i (p + 0)); try lia; apply E4; assumption.
  - set (bs := b :: bs') in *. specialize (Hp ltac:(discriminate)). unfold mem_size.
    destruct (Z.leb_spec (p + zlen bs) (zlen m)); [|lia]. eexists; split; [reflexivity|]. split.
    + rewrite splice_zlen; lia.
    + assumption.
    + unfold splice. apply Forall_app; split; [apply Forall_firstn'; assumption|].
      apply Forall_app; split; [assumption|apply Forall_skipn'; assumption].
    + intros i Hi. rewrite splice_at by lia. unfold write_bytes.
      destruct (Z.leb_spec p i), (Z.ltb_spec i (p + zlen bs)); cbn [andb]; try (apply E4; assumption).
      rewrite data_at_nth by lia. reflexivity.
Qed.

Lemma expand_end a off n : n <> 0 -> off + n <= expand a off n.
Proof. intros. unfold expand. destruct (Z.eqb_spec n 0); [lia|]. pose proof (words_bound (off + n)). lia. Qed.

Lemma mem_ptr_false m p : mem_ptr false m p = Ok p. Proof. reflexivity. Qed.

Lemma mem_get_span_spec m g a off n : mem_rel m g a -> 0 <= n -> (n <> 0 -> 0 <= off /\ off + n < 2 ^ 62) ->
  exists m', mem_get_span false m off n = Ok (read_bytes g off n, m') /\ mem_rel m' g (expand a off n).
Proof.
  intros HR Hn Ho. unfold mem_get_span. destruct (mem_grow_spec m g a off n HR Hn Ho) as (m' & -> & HR').
  cbn [rbind]. rewrite mem_ptr_false. cbn [rbind].
  rewrite (mem_read_spec m' g (expand a off n)); [|assumption|assumption|].
  - cbn [rbind]. eauto.
  - intros h. pose proof (expand_end a off n h). specialize (Ho h). lia.
Qed.
Lemma mem_write_to_spec m g a off n : mem_rel m g a -> 0 <= n -> (n <> 0 -> 0 <= off /\ off + n < 2 ^ 62) ->
  exists m', mem_write_to false m n off = Ok (read_bytes g off n, m') /\ mem_rel m' g (expand a off n).
Proof. exact (mem_get_span_spec m g a off n). Qed.

Lemma mem_read_from_spec m g a buf off : mem_rel m g a -> Forall is_byte buf ->
  (buf <> [] -> 0 <= off /\ off + zlen buf < 2 ^ 62) ->
  exists m', mem_read_from false m buf off = Ok m' /\
             mem_rel m' (write_bytes g off buf) (expand a off (zlen buf)).
Proof.
  intros HR Hb Ho. unfold mem_read_from.
  assert (zlen buf <> 0 -> buf <> []) as Hne by (intros h ->; apply h; reflexivity).
  destruct (mem_grow_spec m g a off (zlen buf) HR (zlen_nonneg _)) as (m1 & -> & HR1); [auto|].
  cbn [rbind]. rewrite mem_ptr_false. cbn [rbind]. apply mem_write_spec; [assumption|assumption|].
  intros h. specialize (Ho h). split; [lia|]. apply expand_end. intros E. apply zlen_0_nil in E. contradiction.
Qed.

Lemma write_bytes_nil g p a : write_bytes g p [] a = g a.
Proof.
  unfold write_bytes. rewrite zlen_nil. destruct (Z.leb_spec p a), (Z.ltb_spec a (p + 0)); try lia; reflexivity.
Qed.
Lemma write_bytes_app g p b1 b2 a :
  write_bytes (write_bytes g p b1) (p + zlen b1) b2 a = write_bytes g p (b1 ++ b2) a.
Proof.
  unfold write_bytes. rewrite zlen_app. pose proof (zlen_nonneg b1). pose proof (zlen_nonneg b2).
  destruct (Z.leb_spec (p + zlen b1) a), (Z.ltb_spec a (p + zlen b1 + zlen b2)),
    (Z.leb_spec p a), (Z.ltb_spec a (p + (zlen b1 + zlen b2))), (Z.ltb_spec a (p + zlen b1)); try lia; cbn [andb];
    try reflexivity.
  - rewrite app_nth2 by (unfold zlen in *; lia). f_equal. unfold zlen; lia.
  - rewrite app_nth1 by (unfold zlen in *; lia). reflexivity.
Qed.
Lemma mem_rel_ext m g g' a : mem_rel m g a -> (forall i, g i = g' i) -> mem_rel m g' a.
Proof. intros [] H. split; auto. intros. rewrite <- H. auto. Qed.

Lemma zeros_byte n : Forall is_byte (zeros n).
Proof. unfold zeros. apply Forall_forall. intros x Hx. apply repeat_spec in Hx. subst; unfold is_byte; lia. Qed.

(** ReadFromWithSize writes the first [n] bytes of the buffer followed by zeros *)
Lemma mem_read_from_with_size_spec m g a buf off n : mem_rel m g a -> Forall is_byte buf -> 0 <= n ->
  (n <> 0 -> 0 <= off /\ off + n < 2 ^ 62) ->
  exists m', mem_read_from_with_size false m buf off n = Ok m' /\
             mem_rel m' (write_bytes g off (data_bytes buf 0 n)) (expand a off n).
Proof.
  intros HR Hb Hn Ho. unfold mem_read_from_with_size.
  destruct (mem_grow_spec m g a off n HR Hn Ho) as (m1 & -> & HR1). cbn [rbind]. rewrite mem_ptr_false. cbn [rbind].
  rewrite data_bytes_pad by lia. cbn [Z.to_nat skipn].
  pose proof (zlen_nonneg buf).
  set (k := Z.min (zlen buf) n) in *.
  assert (zlen (firstn (Z.to_nat k) buf) = k) as Hk by (rewrite zlen_firstn; lia).
  destruct (mem_write_spec m1 g (expand a off n) off (firstn (Z.to_nat k) buf)) as (m2 & -> & HR2);
    [assumption|apply Forall_firstn'; assumption| |].
  { intros h. assert (n <> 0). { intros ->. apply h. replace k with 0 by lia. reflexivity. }
    specialize (Ho ltac:(assumption)). pose proof (expand_end a off n ltac:(assumption)). lia. }
  cbn [rbind]. rewrite mem_ptr_false. cbn [rbind].
  destruct (mem_write_spec m2 _ (expand a off n) (off + k) (zeros (n - k)) HR2 (zeros_byte _)) as (m3 & -> & HR3).
  { intros h. assert (n - k <> 0). { intros E. apply h. rewrite E. reflexivity. }
    assert (n <> 0) by lia. specialize (Ho ltac:(assumption)). pose proof (expand_end a off n ltac:(assumption)).
    rewrite zlen_zeros. lia. }
  eexists; split; [reflexivity|]. eapply mem_rel_ext; [exact HR3|].
  intros i. rewrite <- write_bytes_app. rewrite Hk. reflexivity.
Qed.

Lemma mem_copy_spec m g a dst src n : mem_rel m g a -> 0 <= n ->
  (n <> 0 -> 0 <= dst /\ dst + n < 2 ^ 62 /\ 0 <= src /\ src + n < 2 ^ 62) ->
  exists m', mem_copy false m dst src n = Ok m' /\
             mem_rel m' (write_bytes g dst (read_bytes g src n)) (expand (expand a src n) dst n).
Proof.
  intros HR Hn Ho. unfold mem_copy.
  destruct (mem_grow_spec m g a src n HR Hn) as (m1 & -> & HR1); [intros h; specialize (Ho h); lia|]. cbn [rbind].
  destruct (mem_grow_spec m1 g _ dst n HR1 Hn) as (m2 & -> & HR2); [intros h; specialize (Ho h); lia|]. cbn [rbind].
  rewrite !mem_ptr_false. cbn [rbind].
  rewrite (mem_read_spec m2 g _ src n HR2 Hn).
  2:{ intros h. specialize (Ho h). pose proof (expand_end a src n h).
      pose proof (expand_ge (expand a src n) dst n). lia. }
  cbn [rbind]. apply mem_write_spec; [assumption| |].
  - destruct (Z.eq_dec n 0) as [->|h]; [rewrite read_bytes_nil by lia; constructor|]. specialize (Ho h).
    apply read_bytes_byte. intros i Hi. rewrite (mr_at _ _ _ HR) by lia. apply data_at_byte, (mr_bytes _ _ _ HR).
  - intros h. assert (n <> 0) as h'. { intros ->. apply h. apply read_bytes_nil. lia. }
    specialize (Ho h'). pose proof (expand_end (expand a src n) dst n h'). rewrite read_bytes_zlen. lia.
Qed.

Lemma mem_rel_read_byte m g a off n : mem_rel m g a -> (n <> 0 -> 0 <= off) -> Forall is_byte (read_bytes g off n).
Proof.
  intros HR Ho. destruct (Z.eq_dec n 0) as [->|h]; [rewrite read_bytes_nil by lia; constructor|]. specialize (Ho h).
  apply read_bytes_byte. intros i Hi. rewrite (mr_at _ _ _ HR) by lia. apply data_at_byte, (mr_bytes _ _ _ HR).
Qed.

Lemma mem_of_span_spec bs : Forall is_byte bs -> zlen bs < 2 ^ 62 ->
  exists m, mem_of_span bs = Ok m /\ mem_rel m (data_at bs) (32 * words (zlen bs)).
Proof.
  intros Hb Hl. unfold mem_of_span. pose proof (zlen_nonneg bs). rewrite u64_small by (unpow; lia).
  fold (words (zlen bs)). rewrite (Z.mul_comm _ 32). pose proof (words_bound (zlen bs)).
  rewrite vec_resize_spec by (unpow; lia). eexists; split; [reflexivity|]. split.
  - rewrite zlen_app, zlen_zeros. lia.
  - rewrite words_mul. reflexivity.
  - apply Forall_app; split; [assumption|apply zeros_byte].
  - intros i Hi. rewrite data_at_app, data_at_zeros by lia.
    destruct (Z.ltb_spec i (zlen bs)); [reflexivity|]. apply data_at_out. lia.
Qed.

Lemma fee_nonneg a off n : 0 <= a -> 0 <= Gmem (expand a off n) - Gmem a.
Proof. intros. pose proof (Gmem_mono a (expand a off n)). pose proof (expand_ge a off n). lia. Qed.
