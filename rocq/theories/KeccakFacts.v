(** keccak.h computes Keccak-256: the permutation and the sponge. *)
From Verif Require Import Base Keccak SpecKeccak KeccakRound.
From Coq Require Import Lia ZArith List Bool.
Import ListNotations.
Open Scope Z_scope.

(** ** The permutation *)
Definition state_ok (s : list Z) : Prop := length s = 25%nat /\ Forall lane s.
Lemma round_odd_eq : forall c s, round_odd c s = round_even c s.
Proof. reflexivity. Qed.
Lemma round_even_state : forall c s, lane c -> state_ok s -> state_ok (round_even c s).
Proof.
  intros c s Hc [Hl Hs].
  do 25 (destruct s as [| ? s]; [discriminate Hl |]). destruct s; [| discriminate Hl]. clear Hl.
  repeat match goal with h : Forall lane (_ :: _) |- _ => inversion h; subst; clear h end.
  split; [reflexivity |]. cbv beta zeta iota delta [round_even].
  repeat (apply Forall_cons;
    [ repeat first [ assumption | apply lane_not | apply lane_rol; [| lia] | apply lane_lxor | apply lane_land ] |]). apply Forall_nil.
Qed.

Fixpoint upto (n : nat) (P : nat -> bool) : bool := match n with O => true | S n => P n && upto n P end.
Lemma upto_spec : forall n P, upto n P = true -> forall k, (k < n)%nat -> P k = true.
Proof.
  induction n as [| n IH]; intros P HP k Hk; [lia |]. cbn in HP. apply andb_prop in HP. destruct HP as [H1 H2].
  destruct (Nat.eq_dec k n) as [-> | Hn]; [exact H1 | apply IH; [exact H2 | lia]].
Qed.
Lemma constants_ok : forall r z, (r < 24)%nat -> 0 <= z < 64 -> Z.testbit (nth r round_constants 0) z = constant r z.
Proof.
  assert (C : upto 24 (fun r => upto 64 (fun z => Bool.eqb (Z.testbit (nth r round_constants 0) (Z.of_nat z)) (constant r (Z.of_nat z)))) = true)
    by (vm_compute; reflexivity).
  intros r z Hr Hz. apply eqb_prop. rewrite <- (Z2Nat.id z) by lia.
  apply (upto_spec _ _ (upto_spec _ _ C r Hr) (Z.to_nat z)). lia.
Qed.
Lemma constants_lane : forall r, lane (nth r round_constants 0).
Proof.
  intros r. destruct (Nat.lt_ge_cases r 24) as [L | L].
  - do 24 (destruct r as [| r]; [split; [discriminate | reflexivity] |]). lia.
  - rewrite nth_overflow; [split; [discriminate | reflexivity] |]. exact L.
Qed.

Lemma seq_two : forall n k, seq n (2 * S k) = n :: S n :: seq (n + 2) (2 * k).
Proof. intros. replace (2 * S k)%nat with (S (S (2 * k))) by lia. cbn [seq]. do 3 f_equal. lia. Qed.
Lemma rounds_ok : forall k n s A, (n + 2 * k <= 24)%nat -> state_ok s -> same (bits_of s) A ->
  state_ok (rounds n k s) /\ same (bits_of (rounds n k s)) (fold_left one_round (seq n (2 * k)) A).
Proof.
  induction k as [| k IH]; intros n s A Hn Hs HA. { split; assumption. }
  rewrite seq_two. cbn [rounds fold_left]. rewrite round_odd_eq. replace (n + 1)%nat with (S n) by lia.
  assert (S1 : state_ok (round_even (nth n round_constants 0) s)) by (apply round_even_state; [apply constants_lane | exact Hs]).
  assert (S2 : state_ok (round_even (nth (S n) round_constants 0) (round_even (nth n round_constants 0) s)))
    by (apply round_even_state; [apply constants_lane | exact S1]).
  apply IH; [lia | exact S2 |].
  eapply same_trans.
  { apply (round_even_ok _ (S n)); [apply S1 | apply S1 |]. intros z Hz. apply constants_ok; lia. }
  apply one_round_same. eapply same_trans.
  { apply (round_even_ok _ n); [apply Hs | apply Hs |]. intros z Hz. apply constants_ok; lia. }
  apply one_round_same, HA.
Qed.
Lemma permutation_ok : forall s A, state_ok s -> same (bits_of s) A ->
  state_ok (keccakf1600 s) /\ same (bits_of (keccakf1600 s)) (keccak_f A).
Proof. intros s A Hs HA. apply (rounds_ok 12 0 s A); [lia | exact Hs | exact HA]. Qed.

(** ** Words and bytes *)
Definition byte (b : Z) : Prop := 0 <= b < 256.
Lemma byte_high : forall b i, byte b -> 8 <= i -> Z.testbit b i = false.
Proof.
  intros b i [H0 H1] Hi. destruct (Z.eq_dec b 0) as [-> | Hn]; [apply Z.bits_0 |].
  apply Z.bits_above_log2; [lia |]. assert (Z.log2 b < 8) by (apply Z.log2_lt_pow2; lia). lia.
Qed.
Lemma little_bit : forall bs i, Forall byte bs -> 0 <= i ->
  Z.testbit (little bs) i = Z.testbit (nth (Z.to_nat (i / 8)) bs 0) (i mod 8).
Proof.
  induction bs as [| b bs IH]; intros i Hb Hi.
  { cbn [little]. rewrite nth_overflow by (cbn; lia). rewrite !Z.bits_0. reflexivity. }
  inversion Hb as [| ? ? Hb1 Hb2]; subst. cbn [little].
  assert (E : b + 256 * little bs = Z.lor b (Z.shiftl (little bs) 8)).
  { rewrite Z.shiftl_mul_pow2 by lia. replace (2 ^ 8) with 256 by reflexivity. rewrite Z.mul_comm. symmetry. rewrite Z.add_nocarry_lxor.
    - symmetry. apply Z.bits_inj'. intros n Hn. rewrite Z.lxor_spec, Z.lor_spec. rewrite (Z.mul_comm (little bs)). change 256 with (2 ^ 8). rewrite Z.mul_comm, <- Z.shiftl_mul_pow2 by lia.
      rewrite Z.shiftl_spec by lia. destruct (Z_lt_dec n 8) as [L | L].
      + rewrite (Z.testbit_neg_r _ (n - 8)) by lia. destruct (Z.testbit b n); reflexivity.
      + rewrite (byte_high b n) by (exact Hb1 || lia). destruct (Z.testbit (little bs) (n - 8)); reflexivity.
    - apply Z.bits_inj'. intros n Hn. rewrite Z.land_spec, Z.bits_0. change 256 with (2 ^ 8). rewrite <- Z.shiftl_mul_pow2 by lia.
      rewrite Z.shiftl_spec by lia. destruct (Z_lt_dec n 8) as [L | L].
      + rewrite (Z.testbit_neg_r _ (n - 8)) by lia. apply andb_false_r.
      + rewrite (byte_high b n) by (exact Hb1 || lia). reflexivity. }
  rewrite E, Z.lor_spec, Z.shiftl_spec by lia. destruct (Z_lt_dec i 8) as [L | L].
  - rewrite (Z.testbit_neg_r _ (i - 8)) by lia. rewrite orb_false_r, Z.div_small, Z.mod_small by lia. reflexivity.
  - rewrite (byte_high b i) by (exact Hb1 || lia). rewrite orb_false_l, IH by (exact Hb2 || lia).
    assert (E1 : (i - 8) / 8 = i / 8 - 1) by (replace (i - 8) with (i + (-1) * 8) by lia; rewrite Z.div_add by lia; lia).
    assert (E2 : (i - 8) mod 8 = i mod 8) by (replace (i - 8) with (i + (-1) * 8) by lia; apply Z.mod_add; lia).
    assert (1 <= i / 8) by (apply Z.div_le_lower_bound; lia).
    rewrite E1, E2. replace (Z.to_nat (i / 8)) with (S (Z.to_nat (i / 8 - 1))) by lia. reflexivity.
Qed.
Lemma little_bound : forall bs, Forall byte bs -> 0 <= little bs < 256 ^ Z.of_nat (length bs).
Proof.
  induction bs as [| b bs IH]; intros Hb; [cbn; lia |]. inversion Hb as [| ? ? Hb1 Hb2]; subst. specialize (IH Hb2).
  cbn [little length]. rewrite Nat2Z.inj_succ, Z.pow_succ_r by lia. unfold byte in Hb1. nia.
Qed.
Lemma little_lane : forall bs, Forall byte bs -> (length bs <= 8)%nat -> lane (little bs).
Proof.
  intros bs Hb Hl. assert (B := little_bound bs Hb). split; [lia |]. change (2 ^ 64) with (256 ^ 8).
  eapply Z.lt_le_trans; [apply B |]. apply Z.pow_le_mono_r; lia.
Qed.

(** ** Bit strings *)
Definition byte_bits (b : Z) : list bool := map (fun i => Z.testbit b (Z.of_nat i)) (seq 0 8).
Lemma bits8 : forall b, length (byte_bits b) = 8%nat.
Proof. reflexivity. Qed.
Lemma to_bits_cons : forall b d, to_bits (b :: d) = byte_bits b ++ to_bits d.
Proof. reflexivity. Qed.
Lemma to_bits_length : forall d, length (to_bits d) = (8 * length d)%nat.
Proof. induction d as [| b d IH]; [reflexivity |]. rewrite to_bits_cons, app_length, bits8, IH. cbn [length]. lia. Qed.
Lemma to_bits_app : forall a b, to_bits (a ++ b) = to_bits a ++ to_bits b.
Proof. intros. apply flat_map_app. Qed.
Lemma nth_bits8 : forall b i, (i < 8)%nat -> nth i (byte_bits b) false = Z.testbit b (Z.of_nat i).
Proof. intros b i Hi. do 8 (destruct i as [| i]; [reflexivity |]). lia. Qed.
Lemma to_bits_nth : forall d i, nth i (to_bits d) false = Z.testbit (nth (i / 8) d 0) (Z.of_nat (i mod 8)).
Proof.
  induction d as [| b d IH]; intros i.
  { cbn [to_bits flat_map]. destruct (i / 8)%nat; destruct i; cbn [nth]; rewrite Z.bits_0; reflexivity. }
  rewrite to_bits_cons. destruct (Nat.lt_ge_cases i 8) as [L | L].
  - rewrite app_nth1 by (rewrite bits8; exact L). rewrite nth_bits8 by exact L. rewrite Nat.div_small, Nat.mod_small by exact L. reflexivity.
  - rewrite app_nth2 by (rewrite bits8; exact L). rewrite bits8, IH.
    assert (E : i = (1 * 8 + (i - 8))%nat) by lia. rewrite E at 3 4.
    rewrite Nat.div_add_l by lia. rewrite (Nat.add_comm (1 * 8)), Nat.mod_add by lia. reflexivity.
Qed.
Lemma to_bits_firstn : forall n d, to_bits (firstn n d) = firstn (8 * n) (to_bits d).
Proof.
  induction n as [| n IH]; intros d; [reflexivity |]. destruct d as [| b d]; [rewrite firstn_nil; reflexivity |].
  cbn [firstn]. rewrite !to_bits_cons, IH.
  rewrite firstn_app, bits8, (firstn_all2 (byte_bits b)) by (rewrite bits8; lia). do 2 f_equal. lia.
Qed.
Lemma to_bits_skipn : forall n d, to_bits (skipn n d) = skipn (8 * n) (to_bits d).
Proof.
  induction n as [| n IH]; intros d; [reflexivity |]. destruct d as [| b d]; [rewrite skipn_nil; reflexivity |].
  cbn [skipn]. rewrite to_bits_cons, IH, skipn_app, bits8, (skipn_all2 (byte_bits b)) by (rewrite bits8; lia).
  cbn [app]. f_equal. lia.
Qed.

(** word [k] of a byte string, as if followed by zeros *)
Definition word_at (d : list Z) (k : nat) : Z := little (firstn 8 (skipn (8 * k) d)).
Lemma Forall_firstn : forall A (P : A -> Prop) n l, Forall P l -> Forall P (firstn n l).
Proof. intros A P n l Hl. rewrite <- (firstn_skipn n l) in Hl. apply Forall_app in Hl. apply Hl. Qed.
Lemma Forall_skipn : forall A (P : A -> Prop) n l, Forall P l -> Forall P (skipn n l).
Proof. intros A P n l Hl. rewrite <- (firstn_skipn n l) in Hl. apply Forall_app in Hl. apply Hl. Qed.
Lemma word_at_lane : forall d k, Forall byte d -> lane (word_at d k).
Proof. intros d k Hd. apply little_lane; [apply Forall_firstn, Forall_skipn, Hd | rewrite firstn_length; lia]. Qed.
Lemma nth_firstn_lt : forall A n i (l : list A) x, (i < n)%nat -> nth i (firstn n l) x = nth i l x.
Proof.
  induction n as [| n IH]; intros i l x Hi; [lia |]. destruct l as [| y l]; [rewrite firstn_nil; destruct i; reflexivity |].
  destruct i as [| i]; [reflexivity |]. cbn. apply IH. lia.
Qed.
Lemma nth_skipn_add : forall A n i (l : list A) x, nth i (skipn n l) x = nth (n + i) l x.
Proof.
  induction n as [| n IH]; intros i l x; [reflexivity |]. destruct l as [| y l]; [destruct i; reflexivity |]. cbn. apply IH.
Qed.
Lemma word_at_bit : forall d k z, Forall byte d -> 0 <= z < 64 ->
  Z.testbit (word_at d k) z = nth (64 * k + Z.to_nat z) (to_bits d) false.
Proof.
  intros d k z Hd Hz. unfold word_at. rewrite little_bit by (lia || apply Forall_firstn, Forall_skipn, Hd).
  assert (0 <= z / 8 < 8) by (split; [apply Z.div_pos; lia | apply Z.div_lt_upper_bound; lia]).
  rewrite nth_firstn_lt by lia. rewrite nth_skipn_add, to_bits_nth.
  assert (E1 : ((64 * k + Z.to_nat z) / 8 = 8 * k + Z.to_nat (z / 8))%nat).
  { replace (64 * k)%nat with (8 * k * 8)%nat by lia. rewrite Nat.div_add_l by lia. f_equal.
    rewrite Z2Nat.inj_div by lia. reflexivity. }
  assert (E2 : ((64 * k + Z.to_nat z) mod 8 = Z.to_nat (z mod 8))%nat).
  { replace (64 * k)%nat with (8 * k * 8)%nat by lia. rewrite Nat.add_comm, Nat.mod_add by lia.
    rewrite Z2Nat.inj_mod by lia. reflexivity. }
  rewrite E1, E2, Z2Nat.id; [reflexivity |]. apply Z.mod_pos_bound. lia.
Qed.

(** ** Absorbing *)
Lemma upd_length : forall A (l : list A) i x, length (list_upd l i x) = length l.
Proof. intros A l. induction l as [| y l IH]; intros i x; [reflexivity |]. destruct i; cbn; [reflexivity | rewrite IH; reflexivity]. Qed.
Lemma upd_nth : forall A (l : list A) i x k d, (i < length l)%nat -> nth k (list_upd l i x) d = if Nat.eqb k i then x else nth k l d.
Proof.
  intros A l. induction l as [| y l IH]; intros i x k d Hi; [cbn in Hi; lia |].
  destruct i as [| i]; destruct k as [| k]; cbn; try reflexivity. apply IH. cbn in Hi. lia.
Qed.
Lemma xor_at_ok : forall s i v, (i < length s)%nat -> exists s', xor_at s i v = Ok s' /\ length s' = length s /\
  forall k, nth k s' 0 = if Nat.eqb k i then Z.lxor (nth k s 0) v else nth k s 0.
Proof.
  intros s i v Hi. unfold xor_at. destruct (nth_error s i) as [x |] eqn:E; [| apply nth_error_None in E; lia].
  eexists. split; [reflexivity |]. split; [apply upd_length |]. intros k. rewrite upd_nth by exact Hi.
  destruct (Nat.eqb k i) eqn:Ek; [| reflexivity]. apply Nat.eqb_eq in Ek. subst k. apply nth_error_nth with (d := 0) in E. rewrite E. reflexivity.
Qed.
Lemma load_ok : forall d, 8 <= zlen d -> load_le d = Ok (word_at d 0).
Proof. intros d Hd. unfold load_le. rewrite (proj2 (Z.leb_le _ _) Hd). reflexivity. Qed.
Lemma skipn_add : forall A n m (l : list A), skipn n (skipn m l) = skipn (m + n) l.
Proof. intros A n m. induction m as [| m IH]; intros l; [reflexivity |]. destruct l as [| x l]; [apply skipn_nil | apply IH]. Qed.
Lemma word_at_skip : forall d k m, word_at (skipn (8 * m) d) k = word_at d (m + k).
Proof. intros. unfold word_at. rewrite skipn_add. do 3 f_equal. lia. Qed.
Lemma zlen_skipn : forall A n (l : list A), Z.of_nat n <= zlen l -> zlen (skipn n l) = zlen l - Z.of_nat n.
Proof. intros A n l Hl. unfold zlen in *. rewrite skipn_length. lia. Qed.

Lemma xor_words_ok : forall n i s d, (i + n <= length s)%nat -> Z.of_nat (8 * n) <= zlen d ->
  exists s', xor_words n i s d = Ok (s', skipn (8 * n) d) /\ length s' = length s /\
  forall k, nth k s' 0 = if (Nat.leb i k && Nat.ltb k (i + n))%bool then Z.lxor (nth k s 0) (word_at d (k - i)) else nth k s 0.
Proof.
  induction n as [| n IH]; intros i s d Hi Hd.
  { exists s. split; [reflexivity |]. split; [reflexivity |]. intros k.
    destruct (Nat.leb_spec i k), (Nat.ltb_spec k (i + 0)); cbn; try reflexivity; lia. }
  cbn [xor_words]. rewrite load_ok by lia. cbn [rbind].
  destruct (xor_at_ok s i (word_at d 0) ltac:(lia)) as (s1 & E1 & L1 & N1). rewrite E1. cbn [rbind].
  destruct (IH (S i) s1 (skipn 8 d) ltac:(lia) ltac:(rewrite zlen_skipn by lia; lia)) as (s2 & E2 & L2 & N2).
  exists s2. rewrite E2, skipn_add. split; [do 3 f_equal; lia |]. split; [lia |]. intros k. rewrite N2, N1.
  destruct (Nat.leb_spec (S i) k), (Nat.ltb_spec k (S i + n)), (Nat.leb_spec i k), (Nat.ltb_spec k (i + S n)), (Nat.eqb_spec k i); cbn [andb]; try lia; try reflexivity.
  - change (skipn 8 d) with (skipn (8 * 1) d). rewrite word_at_skip. do 2 f_equal. lia.
  - subst k. rewrite Nat.sub_diag. reflexivity.
Qed.
Lemma whole_words_ok : forall fuel i s d, (length d < fuel)%nat -> Z.of_nat i + zlen d / 8 <= zlen s ->
  let q := Z.to_nat (zlen d / 8) in
  exists s', whole_words fuel i s d (zlen d) = Ok ((i + q)%nat, s', skipn (8 * q) d, zlen d mod 8) /\ length s' = length s /\
  forall k, nth k s' 0 = if (Nat.leb i k && Nat.ltb k (i + q))%bool then Z.lxor (nth k s 0) (word_at d (k - i)) else nth k s 0.
Proof.
  induction fuel as [| fuel IH]; intros i s d Hf Hi q; [lia |]. cbn [whole_words]. unfold word_size. destruct (Z.leb_spec 8 (zlen d)) as [L | L].
  - rewrite load_ok by lia. cbn [rbind].
    assert (Q : zlen d / 8 = 1 + (zlen d - 8) / 8).
    { replace (zlen d) with (1 * 8 + (zlen d - 8)) at 1 by lia. rewrite Z.div_add_l by lia. reflexivity. }
    assert (0 <= (zlen d - 8) / 8) by (apply Z.div_pos; lia).
    destruct (xor_at_ok s i (word_at d 0)) as (s1 & E1 & L1 & N1). { unfold zlen in *. lia. } rewrite E1. cbn [rbind].
    assert (Z8 : zlen (skipn 8 d) = zlen d - 8) by (rewrite zlen_skipn; lia).
    assert (F1 : (length (skipn 8 d) < fuel)%nat) by (rewrite skipn_length; unfold zlen in L; lia).
    assert (F2 : Z.of_nat (S i) + zlen (skipn 8 d) / 8 <= zlen s1) by (rewrite Z8; unfold zlen in *; lia).
    destruct (IH (S i) s1 (skipn 8 d) F1 F2) as (s2 & E2 & L2 & N2). rewrite Z8 in E2, N2.
    exists s2. rewrite E2, skipn_add. unfold q. split.
    { replace (S i + Z.to_nat ((zlen d - 8) / 8))%nat with (i + Z.to_nat (zlen d / 8))%nat by lia.
      replace (8 + 8 * Z.to_nat ((zlen d - 8) / 8))%nat with (8 * Z.to_nat (zlen d / 8))%nat by lia.
      replace ((zlen d - 8) mod 8) with (zlen d mod 8); [reflexivity |].
      replace (zlen d) with ((zlen d - 8) + 1 * 8) at 1 by lia. rewrite Z.mod_add by lia. reflexivity. }
    split; [lia |]. intros k. rewrite N2, N1.
    destruct (Nat.leb_spec (S i) k), (Nat.ltb_spec k (S i + Z.to_nat ((zlen d - 8) / 8))), (Nat.leb_spec i k), (Nat.ltb_spec k (i + Z.to_nat (zlen d / 8))), (Nat.eqb_spec k i); cbn [andb]; try lia; try reflexivity.
    + change (skipn 8 d) with (skipn (8 * 1) d). rewrite word_at_skip. do 2 f_equal. lia.
    + subst k. rewrite Nat.sub_diag. reflexivity.
  - assert (0 <= zlen d) by (unfold zlen; lia). exists s. unfold q. rewrite Z.div_small, Z.mod_small by lia. cbn [Z.to_nat]. rewrite Nat.add_0_r.
    split; [reflexivity |]. split; [reflexivity |]. intros k.
    destruct (Nat.leb_spec i k), (Nat.ltb_spec k i); cbn; try reflexivity; lia.
Qed.

Lemma upd_app : forall A (a : list A) x y r, list_upd (a ++ x :: r) (length a) y = a ++ y :: r.
Proof. intros A a x y r. induction a as [| z a IH]; [reflexivity |]. cbn. rewrite IH. reflexivity. Qed.
Lemma put_byte_ok : forall a n b, put_byte (a ++ repeat 0 (S n)) (length a) b = Ok ((a ++ [b]) ++ repeat 0 n).
Proof.
  intros a n b. unfold put_byte. rewrite (proj2 (Nat.ltb_lt _ _)) by (rewrite app_length; cbn; lia).
  cbn [repeat]. rewrite upd_app, <- app_assoc. reflexivity.
Qed.
Lemma last_bytes_ok : forall d fuel a n, (length d < fuel)%nat ->
  last_bytes fuel (length a) (a ++ repeat 0 (length d + n)) d (zlen d) = Ok (length (a ++ d), (a ++ d) ++ repeat 0 n).
Proof.
  induction d as [| b d IH]; intros fuel a n Hf.
  { destruct fuel; [lia |]. cbn. rewrite app_nil_r. reflexivity. }
  destruct fuel as [| fuel]; [lia |]. cbn [last_bytes length plus].
  assert (Z1 : zlen (b :: d) - 1 = zlen d) by (unfold zlen; cbn [length]; lia).
  rewrite (proj2 (Z.ltb_lt 0 (zlen (b :: d)))) by (unfold zlen; cbn [length]; lia).
  rewrite put_byte_ok. cbn [rbind]. rewrite Z1. replace (S (length a)) with (length (a ++ [b])) by (rewrite app_length; cbn; lia).
  cbn [length] in Hf. rewrite IH by lia. rewrite <- !app_assoc. reflexivity.
Qed.
Lemma little_zeros : forall d n, little (d ++ repeat 0 n) = little d.
Proof.
  induction d as [| b d IH]; intros n; [induction n as [| n IH]; [reflexivity |] | cbn; rewrite IH; reflexivity].
  cbn [app repeat little] in *. rewrite IH. reflexivity.
Qed.

(** what a block adds to the state *)
Definition plus_bits (A : bits) (block : list bool) : bits :=
  fun x y z => xorb (A x y z) (nth (Z.to_nat (64 * (5 * y + x) + z)) block false).
Lemma absorb_eq : forall A block, absorb A block = keccak_f (plus_bits A block).
Proof. reflexivity. Qed.
Lemma keccak_f_same : forall A B, same A B -> same (keccak_f A) (keccak_f B).
Proof.
  intros A B. unfold keccak_f. generalize (seq 0 24) as l. intros l. revert A B.
  induction l as [| r l IH]; intros A B HA; [exact HA |]. cbn. apply IH, one_round_same, HA.
Qed.
(** words added to the state: as the bits added *)
Lemma words_bits : forall s s' A d extra, same (bits_of s) A -> Forall byte d ->
  (forall k, (k < 25)%nat -> nth k s' 0 = Z.lxor (Z.lxor (nth k s 0) (word_at d k)) (extra k)) ->
  forall block, (forall k z, (k < 25)%nat -> 0 <= z < 64 ->
    nth (64 * k + Z.to_nat z) block false = xorb (nth (64 * k + Z.to_nat z) (to_bits d) false) (Z.testbit (extra k) z)) ->
  same (bits_of s') (plus_bits A block).
Proof.
  intros s s' A d extra HA Hd Hs block Hb x y z Hx Hy Hz. unfold plus_bits. rewrite <- (HA x y z) by assumption.
  unfold bits_of. set (k := Z.to_nat (x + 5 * y)). assert (Hk : (k < 25)%nat) by lia.
  replace (Z.to_nat (64 * (5 * y + x) + z)) with (64 * k + Z.to_nat z)%nat by lia.
  rewrite Hs, Hb by assumption. rewrite !Z.lxor_spec, word_at_bit by assumption. rewrite xorb_assoc. reflexivity.
Qed.
Lemma words_state : forall s s' d extra, state_ok s -> length s' = length s -> Forall byte d -> (forall k, lane (extra k)) ->
  (forall k, (k < 25)%nat -> nth k s' 0 = Z.lxor (Z.lxor (nth k s 0) (word_at d k)) (extra k)) -> state_ok s'.
Proof.
  intros s s' d extra [Hl Hs] Hl' Hd He Hn. split; [lia |]. apply Forall_forall. intros v Hv.
  apply (In_nth _ _ 0) in Hv. destruct Hv as (k & Hk & <-). rewrite Hn by lia. apply lane_lxor; [| apply He].
  apply lane_lxor; [| apply word_at_lane, Hd]. rewrite Forall_forall in Hs. apply Hs, nth_In. lia.
Qed.
Lemma word_at_beyond : forall d k, (length d <= 8 * k)%nat -> word_at d k = 0.
Proof. intros d k Hk. unfold word_at. rewrite skipn_all2 by exact Hk. reflexivity. Qed.
Lemma word_at_firstn : forall d n k, (k < n)%nat -> word_at (firstn (8 * n) d) k = word_at d k.
Proof.
  intros d n k Hk. unfold word_at. rewrite skipn_firstn_comm, firstn_firstn. do 2 f_equal. lia.
Qed.

Lemma blocks_step : forall n m, blocks (S n) m = firstn rate m :: blocks n (skipn rate m).
Proof. reflexivity. Qed.
Lemma whole_blocks_ok : forall fuel s d A tail n, (length d < fuel)%nat -> state_ok s -> same (bits_of s) A -> Forall byte d ->
  exists s' rest A', whole_blocks fuel s d (zlen d) = Ok (s', rest, zlen rest) /\ state_ok s' /\ same (bits_of s') A' /\
    Forall byte rest /\ zlen rest = zlen d mod 136 /\
    fold_left absorb (blocks (length d / 136 + n) (to_bits d ++ tail)) A = fold_left absorb (blocks n (to_bits rest ++ tail)) A'.
Proof.
  induction fuel as [| fuel IH]; intros s d A tail n Hf Hs HA Hd; [lia |]. cbn [whole_blocks]. change block_size with 136.
  destruct (Z.leb_spec 136 (zlen d)) as [L | L].
  - change (Z.to_nat (136 / word_size)) with 17%nat.
    destruct (xor_words_ok 17 0 s d) as (s1 & E1 & L1 & N1). { destruct Hs as [Hl _]. rewrite Hl. lia. } { exact L. }
    rewrite E1. cbn [rbind]. change (8 * 17)%nat with 136%nat.
    assert (N1' : forall k, (k < 25)%nat -> nth k s1 0 = Z.lxor (Z.lxor (nth k s 0) (word_at (firstn 136 d) k)) 0).
    { intros k Hk. rewrite N1, Z.lxor_0_r. cbn [Nat.leb plus andb]. destruct (Nat.ltb_spec k 17) as [K | K].
      - change 136%nat with (8 * 17)%nat. rewrite word_at_firstn by exact K. rewrite Nat.sub_0_r. reflexivity.
      - rewrite word_at_beyond by (rewrite firstn_length; lia). rewrite Z.lxor_0_r. reflexivity. }
    assert (D1 : Forall byte (firstn 136 d)) by (apply Forall_firstn, Hd).
    assert (S1 : state_ok s1).
    { apply (words_state s s1 (firstn 136 d) (fun _ => 0)); try assumption. intros _. split; [discriminate | reflexivity]. }
    assert (B1 : same (bits_of s1) (plus_bits A (firstn rate (to_bits d ++ tail)))).
    { apply (words_bits s s1 A (firstn 136 d) (fun _ => 0)); try assumption. intros k z Hk Hz. rewrite Z.bits_0, xorb_false_r.
      rewrite to_bits_firstn. change (8 * 136)%nat with rate. rewrite firstn_app, to_bits_length.
      replace (rate - 8 * length d)%nat with 0%nat by (unfold rate, zlen in *; lia). rewrite firstn_O, app_nil_r. reflexivity. }
    destruct (permutation_ok s1 _ S1 B1) as [S2 B2]. rewrite <- absorb_eq in B2.
    assert (Z1 : zlen (skipn 136 d) = zlen d - 136) by (rewrite zlen_skipn; lia).
    assert (F1 : (length (skipn 136 d) < fuel)%nat) by (rewrite skipn_length; unfold zlen in L; lia).
    destruct (IH (keccakf1600 s1) (skipn 136 d) _ tail n F1 S2 B2 (Forall_skipn _ _ _ _ Hd)) as (s' & rest & A' & E' & S' & B' & D' & R' & F').
    rewrite Z1 in E', R'. exists s', rest, A'. split; [exact E' |]. split; [exact S' |]. split; [exact B' |]. split; [exact D' |].
    split. { rewrite R'. replace (zlen d) with ((zlen d - 136) + 1 * 136) at 2 by lia. rewrite Z.mod_add by lia. reflexivity. }
    rewrite <- F'.
    assert (Q : (length d / 136 = S (length (skipn 136 d) / 136))%nat).
    { rewrite skipn_length. replace (length d) with (1 * 136 + (length d - 136))%nat at 1 by (unfold zlen in L; lia).
      rewrite Nat.div_add_l by lia. reflexivity. }
    rewrite Q. cbn [plus]. rewrite blocks_step. cbn [fold_left]. do 2 f_equal.
    rewrite skipn_app, to_bits_skipn, to_bits_length. change (8 * 136)%nat with rate.
    replace (rate - 8 * length d)%nat with 0%nat by (unfold rate, zlen in *; lia). reflexivity.
  - exists s, d, A. assert (0 <= zlen d) by (unfold zlen; lia). split; [reflexivity |]. repeat split; try assumption; try apply Hs.
    + rewrite Z.mod_small by lia. reflexivity.
    + rewrite Nat.div_small by (unfold zlen in L; lia). reflexivity.
Qed.

(** the padding within the last block *)
Lemma padding_eq : forall len m, (m < 136)%nat -> Z.of_nat len mod 1088 = Z.of_nat (8 * m) ->
  padding len = [true] ++ repeat false (1086 - 8 * m) ++ [true].
Proof.
  intros len m Hm He. unfold padding. do 4 f_equal.
  replace (- Z.of_nat len - 2) with (0 - 2 - Z.of_nat len) by lia. rewrite <- Zminus_mod_idemp_r, He.
  replace (0 - 2 - Z.of_nat (8 * m)) with ((1086 - Z.of_nat (8 * m)) + (-1) * 1088) by lia.
  rewrite Z.mod_add, Z.mod_small by lia. lia.
Qed.
Lemma nth_repeat_false : forall n i, nth i (repeat false n) false = false.
Proof. induction n as [| n IH]; intros [| i]; cbn; auto. Qed.
Definition top_bit (k : nat) : Z := if Nat.eqb k 16 then 0x8000000000000000 else 0.
Lemma top_bit_spec : forall k z, 0 <= z < 64 -> Z.testbit (top_bit k) z = Nat.eqb (64 * k + Z.to_nat z) 1087.
Proof.
  intros k z Hz. unfold top_bit. destruct (Nat.eqb_spec k 16) as [-> | Hk].
  - change 0x8000000000000000 with (2 ^ 63). rewrite Z.pow2_bits_eqb by lia.
    destruct (Z.eqb_spec 63 z), (Nat.eqb_spec (64 * 16 + Z.to_nat z) 1087); try reflexivity; lia.
  - rewrite Z.bits_0. destruct (Nat.eqb_spec (64 * k + Z.to_nat z) 1087); [lia | reflexivity].
Qed.
Lemma last_block_bits : forall rest m i, length rest = m -> (m < 136)%nat ->
  nth i (to_bits rest ++ [true] ++ repeat false (1086 - 8 * m) ++ [true]) false =
  xorb (nth i (to_bits (rest ++ [1])) false) (Nat.eqb i 1087).
Proof.
  intros rest m i Hl Hm. rewrite to_bits_app. assert (L := to_bits_length rest). rewrite Hl in L.
  destruct (Nat.lt_ge_cases i (8 * m)) as [Hi | Hi].
  - rewrite !app_nth1 by lia. destruct (Nat.eqb_spec i 1087); [lia |]. rewrite xorb_false_r. reflexivity.
  - rewrite !(app_nth2 (to_bits rest)) by lia. rewrite L. remember (i - 8 * m)%nat as j eqn:Hj.
    change (to_bits [1]) with [true; false; false; false; false; false; false; false]. destruct j as [| j].
    { cbn. destruct (Nat.eqb_spec i 1087); [lia |]. reflexivity. }
    replace (nth (S j) [true; false; false; false; false; false; false; false] false) with false
      by (do 8 (destruct j as [| j]; [reflexivity |]); reflexivity).
    rewrite xorb_false_l. cbn [app nth]. destruct (Nat.lt_ge_cases j (1086 - 8 * m)) as [Hr | Hr].
    + rewrite app_nth1 by (rewrite repeat_length; exact Hr). rewrite nth_repeat_false. destruct (Nat.eqb_spec i 1087); [lia | reflexivity].
    + rewrite app_nth2 by (rewrite repeat_length; exact Hr). rewrite repeat_length.
      destruct (Nat.eqb_spec i 1087) as [E | E].
      * replace (j - (1086 - 8 * m))%nat with 0%nat by lia. reflexivity.
      * destruct (j - (1086 - 8 * m))%nat as [| [| n]] eqn:En; [lia | reflexivity | reflexivity].
Qed.

(** the output *)
Lemma bytes_le_bits : forall w, to_bits (bytes_le w) = map (fun i => Z.testbit w (Z.of_nat i)) (seq 0 64).
Proof.
  intros w.
  assert (B : forall k i, 0 <= k -> 0 <= i < 8 -> Z.testbit ((w / 2 ^ (8 * k)) mod 256) i = Z.testbit w (8 * k + i)).
  { intros k i Hk Hi. change 256 with (2 ^ 8). rewrite Z.mod_pow2_bits_low by lia. rewrite Z.div_pow2_bits by lia. f_equal. lia. }
  unfold bytes_le, to_bits. cbn [seq map flat_map app Z.of_nat Pos.of_succ_nat Pos.succ].
  rewrite !B by lia. reflexivity.
Qed.
Lemma bytes_le_ok : forall w, length (bytes_le w) = 8%nat /\ Forall (fun b => 0 <= b < 256) (bytes_le w).
Proof.
  intros w. split; [reflexivity |]. unfold bytes_le. apply Forall_forall. intros b Hb. apply in_map_iff in Hb. destruct Hb as (k & <- & _).
  apply Z.mod_pos_bound. lia.
Qed.
Lemma map_seq_from : forall A (f : nat -> A) n k, map f (seq n k) = map (fun i => f (n + i)%nat) (seq 0 k).
Proof.
  intros A f n k. revert n f. induction k as [| k IH]; intros n f; [reflexivity |]. cbn [seq map]. rewrite Nat.add_0_r. f_equal.
  rewrite IH. rewrite (IH 1%nat). apply map_ext. intros i. f_equal. lia.
Qed.
Lemma lane_out : forall A k w, (k < 4)%nat -> (forall z, 0 <= z < 64 -> Z.testbit w z = A (Z.of_nat k) 0 z) ->
  map (fun i => A (Z.of_nat i / 64) 0 (Z.of_nat i mod 64)) (seq (64 * k) 64) = to_bits (bytes_le w).
Proof.
  intros A k w Hk Hw. rewrite bytes_le_bits, map_seq_from. apply map_ext_in. intros i Hi. apply in_seq in Hi.
  replace (Z.of_nat (64 * k + i)) with (Z.of_nat k * 64 + Z.of_nat i) by lia.
  rewrite Z.div_add_l, Z.div_small by lia. rewrite Z.add_0_r, Z.add_comm, Z.mod_add, Z.mod_small by lia. rewrite Hw by lia. reflexivity.
Qed.
Lemma output_ok : forall s A, state_ok s -> same (bits_of s) A ->
  length (output 4 s) = 32%nat /\ Forall (fun b => 0 <= b < 256) (output 4 s) /\
  to_bits (output 4 s) = map (fun i => A (Z.of_nat i / 64) 0 (Z.of_nat i mod 64)) (seq 0 256).
Proof.
  intros s A [Hl _] HA. destruct s as [| a [| b [| c [| d s]]]]; try discriminate Hl. unfold output.
  cbn [firstn flat_map]. rewrite app_nil_r.
  assert (O : forall k z, 0 <= k < 4 -> 0 <= z < 64 -> Z.testbit (nth (Z.to_nat k) [a; b; c; d] 0) z = A k 0 z).
  { intros k z Hk Hz. rewrite <- HA by lia. unfold bits_of. rewrite Z.mul_0_r, Z.add_0_r.
    assert (k = 0 \/ k = 1 \/ k = 2 \/ k = 3) as [-> | [-> | [-> | ->]]] by lia; reflexivity. }
  split; [rewrite !app_length; reflexivity |]. split; [repeat (apply Forall_app; split); apply bytes_le_ok |].
  rewrite !to_bits_app. change (seq 0 256) with (seq (64 * 0) 64 ++ seq (64 * 1) 64 ++ seq (64 * 2) 64 ++ seq (64 * 3) 64).
  rewrite !map_app.
  rewrite (lane_out A 0 a), (lane_out A 1 b), (lane_out A 2 c), (lane_out A 3 d); [reflexivity | lia | | lia | | lia | | lia |];
    intros z Hz; [apply (O 3) | apply (O 2) | apply (O 1) | apply (O 0)]; lia.
Qed.

(** ** The function *)
Lemma blocks_one : forall p, length p = rate -> blocks 1 p = [p].
Proof. intros p Hp. cbn [blocks]. rewrite firstn_all2 by lia. reflexivity. Qed.
Lemma map_sponge_same : forall A B, same A B ->
  map (fun i => A (Z.of_nat i / 64) 0 (Z.of_nat i mod 64)) (seq 0 256) = map (fun i => B (Z.of_nat i / 64) 0 (Z.of_nat i mod 64)) (seq 0 256).
Proof.
  intros A B HA. apply map_ext_in. intros i Hi. apply in_seq in Hi. apply HA; [| lia | apply Z.mod_pos_bound; lia].
  split; [apply Z.div_pos; lia | apply Z.div_lt_upper_bound; lia].
Qed.
Lemma zero_state : state_ok (repeat 0 25) /\ same (bits_of (repeat 0 25)) (fun _ _ _ => false).
Proof.
  split. { split; [reflexivity |]. apply Forall_forall. intros v Hv. apply repeat_spec in Hv. subst. split; [discriminate | reflexivity]. }
  intros x y z _ _ _. unfold bits_of. rewrite nth_repeat. apply Z.bits_0.
Qed.
Theorem keccak256_ok : forall data, Forall byte data -> exists h, tosca_lfvm_keccak256 data = Ok h /\ digest data h.
Proof.
  intros data Hd. unfold tosca_lfvm_keccak256. destruct zero_state as [Z1 Z2].
  destruct (whole_blocks_ok (S (length data)) _ data _ (padding (length (to_bits data))) 1 ltac:(lia) Z1 Z2 Hd) as (s & rest & A & E & Hs & HA & Hr & Hm & F).
  rewrite E. cbn [rbind]. set (m := length rest). assert (Lr : zlen rest = Z.of_nat m) by reflexivity.
  assert (M : (m < 136)%nat) by (assert (B := Z.mod_pos_bound (zlen data) 136 ltac:(lia)); lia).
  assert (P : padding (length (to_bits data)) = [true] ++ repeat false (1086 - 8 * m) ++ [true]).
  { apply padding_eq; [exact M |]. rewrite to_bits_length, !Nat2Z.inj_mul. change 1088 with (Z.of_nat 8 * 136).
    rewrite Z.mul_mod_distr_l by lia. f_equal. unfold zlen in Hm. lia. }
  assert (Fu : (length rest < S (length data))%nat).
  { assert (zlen rest <= zlen data) by (rewrite Hm; apply Z.mod_le; unfold zlen; lia). unfold zlen in *. lia. }
  assert (Q16 : 0 <= zlen rest / 8 <= 16).
  { split; [apply Z.div_pos; lia |]. apply Z.lt_succ_r, Z.div_lt_upper_bound; lia. }
  destruct (whole_words_ok (S (length data)) 0 s rest Fu) as (s1 & E1 & L1 & N1). { destruct Hs as [Hl _]. unfold zlen at 2. rewrite Hl. lia. }
  rewrite E1. cbn [rbind]. set (q := Z.to_nat (zlen rest / 8)) in *.
  assert (Hq : (8 * q <= m)%nat /\ (m - 8 * q < 8)%nat).
  { assert (B := Z.div_mod (zlen rest) 8 ltac:(lia)). assert (B2 := Z.mod_pos_bound (zlen rest) 8 ltac:(lia)). unfold q. lia. }
  assert (Ll : length (skipn (8 * q) rest) = (m - 8 * q)%nat) by (rewrite skipn_length; reflexivity).
  assert (Zl : zlen rest mod 8 = zlen (skipn (8 * q) rest)).
  { unfold zlen at 2. rewrite Ll. assert (B := Z.div_mod (zlen rest) 8 ltac:(lia)). unfold q in *. lia. }
  rewrite Zl.
  assert (E2 := last_bytes_ok (skipn (8 * q) rest) (S (length data)) [] (S (7 - (m - 8 * q)))).
  rewrite Ll in E2. replace (m - 8 * q + S (7 - (m - 8 * q)))%nat with 8%nat in E2 by lia. cbn [length app] in E2.
  rewrite E2 by lia. cbn [rbind]. rewrite put_byte_ok. cbn [rbind].
  destruct (xor_at_ok s1 (0 + q) (little ((skipn (8 * q) rest ++ [1]) ++ repeat 0 (7 - (m - 8 * q))))) as (s2 & E3 & L2 & N2).
  { destruct Hs as [Hl _]. lia. }
  rewrite E3. cbn [rbind]. change (Z.to_nat (block_size / word_size - 1)) with 16%nat.
  destruct (xor_at_ok s2 16 0x8000000000000000) as (s3 & E4 & L3 & N3). { destruct Hs as [Hl _]. lia. }
  rewrite E4. cbn [rbind]. change (Z.to_nat (32 / word_size)) with 4%nat.
  eexists. split; [reflexivity |].
  assert (Hr1 : Forall byte (rest ++ [1])) by (apply Forall_app; split; [exact Hr | repeat constructor; lia]).
  assert (N : forall k, (k < 25)%nat -> nth k s3 0 = Z.lxor (Z.lxor (nth k s 0) (word_at (rest ++ [1]) k)) (top_bit k)).
  { intros k Hk. rewrite N3, N2, N1, little_zeros.
    assert (W : Z.lxor (nth k s 0) (word_at (rest ++ [1]) k) =
      (if (k =? 0 + q)%nat then Z.lxor (if ((0 <=? k)%nat && (k <? 0 + q)%nat)%bool then Z.lxor (nth k s 0) (word_at rest (k - 0)) else nth k s 0)
         (little (skipn (8 * q) rest ++ [1]))
       else if ((0 <=? k)%nat && (k <? 0 + q)%nat)%bool then Z.lxor (nth k s 0) (word_at rest (k - 0)) else nth k s 0)).
    { cbn [Nat.leb andb plus]. rewrite Nat.sub_0_r. destruct (Nat.eqb_spec k q) as [-> | K].
      - rewrite (proj2 (Nat.ltb_ge q q)) by lia. f_equal. unfold word_at. rewrite skipn_app. replace (8 * q - length rest)%nat with 0%nat by (fold m; lia).
        rewrite skipn_O, firstn_all2 by (rewrite app_length, Ll; cbn; lia). reflexivity.
      - destruct (Nat.ltb_spec k q) as [K2 | K2].
        + f_equal. unfold word_at. rewrite skipn_app, firstn_app, skipn_length.
          replace (8 - (length rest - 8 * k))%nat with 0%nat by (fold m; lia). rewrite firstn_O, app_nil_r. reflexivity.
        + rewrite word_at_beyond by (rewrite app_length; fold m; cbn; lia). apply Z.lxor_0_r. }
    rewrite W. unfold top_bit. destruct (Nat.eqb k 16); [reflexivity | rewrite Z.lxor_0_r; reflexivity]. }
  assert (S3 : state_ok s3).
  { apply (words_state s s3 (rest ++ [1]) top_bit); try assumption; [lia |]. intros k. unfold top_bit. destruct (Nat.eqb k 16); split; discriminate || reflexivity. }
  assert (B3 : same (bits_of s3) (plus_bits A (to_bits rest ++ padding (length (to_bits data))))).
  { apply (words_bits s s3 A (rest ++ [1]) top_bit); try assumption. intros k z Hk Hz. rewrite P, (last_block_bits rest m) by (reflexivity || exact M).
    rewrite top_bit_spec by exact Hz. reflexivity. }
  destruct (permutation_ok s3 _ S3 B3) as [S4 B4]. destruct (output_ok _ _ S4 B4) as (O1 & O2 & O3).
  split; [exact O1 |]. split; [exact O2 |]. rewrite O3. unfold keccak_bits, sponge.
  assert (Lp : length (padding (length (to_bits data))) = (1088 - 8 * m)%nat) by (rewrite P, !app_length, repeat_length; cbn [length]; lia).
  assert (Nb : (length (to_bits data ++ padding (length (to_bits data))) / rate = length data / 136 + 1)%nat).
  { rewrite app_length, Lp, to_bits_length. unfold rate.
    assert (D : (length data = 136 * (length data / 136) + m)%nat).
    { assert (D := Nat.div_mod (length data) 136 ltac:(lia)). unfold zlen in Hm. change 136 with (Z.of_nat 136) in Hm. rewrite <- Nat2Z.inj_mod in Hm by lia. fold m in Hm. lia. }
    replace (8 * length data + (1088 - 8 * m))%nat with ((length data / 136 + 1) * 1088)%nat by lia. apply Nat.div_mul. lia. }
  rewrite Nb, F. rewrite blocks_one by (rewrite app_length, to_bits_length, Lp; unfold rate; fold m; lia). reflexivity.
Qed.

(** the digest is unique *)
Lemma to_bits_inj : forall a b, Forall byte a -> Forall byte b -> to_bits a = to_bits b -> a = b.
Proof.
  induction a as [| x a IH]; intros [| y b] Ha Hb E; try reflexivity; try (rewrite to_bits_cons in E; discriminate E).
  rewrite !to_bits_cons in E. inversion Ha as [| ? ? Ha1 Ha2]; inversion Hb as [| ? ? Hb1 Hb2]; subst.
  assert (E1 : byte_bits x = byte_bits y) by (apply (f_equal (firstn 8)) in E; exact E).
  assert (E2 : to_bits a = to_bits b) by (apply (f_equal (skipn 8)) in E; exact E).
  f_equal; [| apply IH; assumption]. apply Z.bits_inj'. intros n Hn. destruct (Z_lt_dec n 8) as [L | L].
  - assert (E3 := f_equal (fun l => nth (Z.to_nat n) l false) E1). cbn beta in E3. rewrite !nth_bits8 in E3 by lia. rewrite Z2Nat.id in E3 by lia. exact E3.
  - rewrite !byte_high by (assumption || lia). reflexivity.
Qed.
Theorem digest_unique : forall data h h', digest data h -> digest data h' -> h = h'.
Proof. intros data h h' (_ & B & E) (_ & B' & E'). apply to_bits_inj; [exact B | exact B' | congruence]. Qed.

(** the function for 32 bytes *)
Lemma go_word_ok : forall data k, length data = 32%nat -> Forall byte data -> (k < 4)%nat -> go_word data k = word_at data k.
Proof.
  intros data k Hl Hd Hk. do 32 (destruct data as [| ? data]; [discriminate Hl |]). destruct data; [| discriminate Hl]. clear Hl.
  assert (Hd' : Forall byte (firstn 8 (skipn (8 * k) ([z; z0; z1; z2; z3; z4; z5; z6; z7; z8; z9; z10; z11; z12; z13; z14; z15; z16; z17; z18; z19; z20; z21; z22; z23; z24; z25; z26; z27; z28; z29; z30])))) by (apply Forall_firstn, Forall_skipn, Hd).
  clear Hd.
  assert (G : forall a b c d e f g h, Forall byte [a; b; c; d; e; f; g; h] ->
    Z.lor (Z.lor (Z.lor (Z.lor (Z.lor (Z.lor (Z.lor (Z.shiftl h 56) (Z.shiftl g 48)) (Z.shiftl f 40)) (Z.shiftl e 32)) (Z.shiftl d 24)) (Z.shiftl c 16)) (Z.shiftl b 8)) (Z.shiftl a 0)
    = little [a; b; c; d; e; f; g; h]).
  { clear. intros a b c d e f g h HF. apply Z.bits_inj'. intros n Hn. rewrite little_bit by assumption. rewrite !Z.lor_spec, !Z.shiftl_spec by lia.
    repeat match goal with h : Forall byte (_ :: _) |- _ => inversion h; subst; clear h end.
    assert (HB : forall x o, byte x -> Z.testbit x (n - 8 * o) = if n / 8 =? o then Z.testbit x (n mod 8) else false).
    { intros x o Hx. assert (D := Z.div_mod n 8 ltac:(lia)). assert (D2 := Z.mod_pos_bound n 8 ltac:(lia)).
      destruct (Z.eqb_spec (n / 8) o) as [E | E]; [f_equal; lia |].
      destruct (Z_lt_dec (n / 8) o) as [L | L]; [apply Z.testbit_neg_r; lia | apply byte_high; [exact Hx | lia]]. }
    change 56 with (8 * 7); change 48 with (8 * 6); change 40 with (8 * 5); change 32 with (8 * 4); change 24 with (8 * 3); change 16 with (8 * 2).
    change (n - 8) with (n - 8 * 1). change (n - 0) with (n - 8 * 0). rewrite !HB by assumption.
    assert (0 <= n / 8) by (apply Z.div_pos; lia).
    destruct (Z_lt_dec (n / 8) 8) as [L | L].
    - assert (n / 8 = 0 \/ n / 8 = 1 \/ n / 8 = 2 \/ n / 8 = 3 \/ n / 8 = 4 \/ n / 8 = 5 \/ n / 8 = 6 \/ n / 8 = 7) as Hc by lia.
      repeat (destruct Hc as [Hc | Hc]); rewrite Hc; cbn [Z.eqb Pos.eqb Z.to_nat Pos.to_nat Pos.iter_op Nat.add nth]; rewrite ?orb_false_r, ?orb_false_l; reflexivity.
    - rewrite nth_overflow by (cbn [length]; lia). rewrite Z.bits_0.
      repeat match goal with |- context [?u =? ?v] => destruct (Z.eqb_spec u v); [lia |] end. reflexivity. }
  unfold go_word, word_at.
  do 4 (destruct k as [| k]; [cbn [Nat.mul Nat.add skipn firstn nth] in *; apply G; exact Hd' |]). lia.
Qed.
Theorem keccak32_ok : forall data, length data = 32%nat -> Forall byte data -> exists h, Keccak256For32byte data = Ok h /\ digest data h.
Proof.
  intros data Hl Hd. destruct (keccak256_ok data Hd) as (h & E & D). exists h. split; [| exact D]. rewrite <- E.
  unfold Keccak256For32byte. rewrite !go_word_ok by (assumption || lia).
  unfold tosca_lfvm_keccak256. rewrite Hl.
  unfold zlen. rewrite Hl. cbn [whole_blocks Z.of_nat Pos.of_succ_nat Pos.succ]. change (block_size <=? 32) with false. cbn [rbind].
  do 32 (destruct data as [| ? data]; [discriminate Hl |]). destruct data; [| discriminate Hl]. clear. reflexivity.
Qed.
Theorem Keccak256_ok : forall empty data, Forall byte data -> digest [] empty -> exists h, Keccak256 empty data = Ok h /\ digest data h.
Proof.
  intros empty data Hd He. unfold Keccak256. destruct (Z.eqb_spec (zlen data) 0) as [Z0 | _]; [| apply keccak256_ok, Hd].
  destruct data; [| discriminate Z0]. exists empty. split; [reflexivity | exact He].
Qed.
