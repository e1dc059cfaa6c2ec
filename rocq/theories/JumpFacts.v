(** Jump destination analysis (opcodes.cc:15-28) against the inductive definition of SpecEvm.v. *)
From Verif Require Import Base Host Uint256 Memory Opcodes Interp SpecEvm ArithFacts MemFacts.
From Coq Require Import Lia ZArith List Bool.

Lemma znth_in {A} (l : list A) i x : znth l i = Some x -> 0 <= i < zlen l.
Proof.
  unfold znth, zlen. destruct (Z.ltb_spec i 0); [discriminate|]. intros E.
  assert (nth_error l (Z.to_nat i) <> None) as E' by congruence. apply nth_error_Some in E'. lia.
Qed.
Lemma znth_some {A} (l : list A) i d : 0 <= i < zlen l -> znth l i = Some (nth (Z.to_nat i) l d).
Proof.
  unfold znth, zlen. intros. destruct (Z.ltb_spec i 0); [lia|]. apply nth_error_nth'. lia.
Qed.
Lemma znth_none {A} (l : list A) i : znth l i = None <-> i < 0 \/ zlen l <= i.
Proof.
  unfold znth, zlen. destruct (Z.ltb_spec i 0); [split; auto|]. rewrite nth_error_None. lia.
Qed.
Lemma znth_data l i : 0 <= i < zlen l -> znth l i = Some (data_at l i).
Proof. intros. rewrite data_at_in by assumption. apply znth_some. assumption. Qed.

Lemma list_upd_length {A} (l : list A) i x : length (list_upd l i x) = length l.
Proof. revert i; induction l; intros [|i]; cbn; auto. Qed.
Lemma list_upd_zlen {A} (l : list A) i x : zlen (list_upd l i x) = zlen l.
Proof. unfold zlen. rewrite list_upd_length. reflexivity. Qed.
Lemma list_upd_nth {A} (l : list A) i j x d : (i < length l)%nat ->
  nth j (list_upd l i x) d = if Nat.eqb j i then x else nth j l d.
Proof.
  revert i j; induction l; intros i j H; cbn in H; [lia|].
  destruct i, j; cbn; try reflexivity. apply IHl. lia.
Qed.
Lemma list_upd_data l i x j : 0 <= i < zlen l -> 0 <= j ->
  data_at (list_upd l (Z.to_nat i) x) j = if j =? i then x else data_at l j.
Proof.
  intros Hi Hj. rewrite !data_at_nth by lia. rewrite list_upd_nth by (unfold zlen in *; lia).
  destruct (Z.eqb_spec j i), (Nat.eqb_spec (Z.to_nat j) (Z.to_nat i)); lia || reflexivity.
Qed.

Lemma push_len_nonneg b : 0 <= push_len b.
Proof. unfold push_len. destruct ((96 <=? b) && (b <=? 127)) eqn:E; [|lia]. apply andb_true_iff in E as [E _]. apply Z.leb_le in E. lia. Qed.
Lemma push_len_le b : push_len b <= 32.
Proof. unfold push_len. destruct ((96 <=? b) && (b <=? 127)) eqn:E; [|lia]. apply andb_true_iff in E as [_ E]. apply Z.leb_le in E. lia. Qed.

Lemma start_nonneg code p : instr_start code p -> 0 <= p.
Proof. induction 1; [lia|]. pose proof (push_len_nonneg (code_at code p)). lia. Qed.

Lemma start_gap code i : instr_start code i -> forall p, instr_start code p -> p < i ->
  p + 1 + push_len (code_at code p) <= i.
Proof.
  induction 1 as [|q Hq IHq Hql]; intros p Hp Hlt.
  - apply start_nonneg in Hp. lia.
  - destruct (Z.lt_trichotomy p q) as [H|[->|H]].
    + specialize (IHq p Hp H). pose proof (push_len_nonneg (code_at code q)). lia.
    + lia.
    + exfalso. revert Hlt H. induction Hp as [|r Hr IHr Hrl]; intros Hlt H.
      * apply start_nonneg in Hq. lia.
      * pose proof (push_len_nonneg (code_at code r)).
        destruct (Z.lt_trichotomy r q) as [H'|[->|H']].
        -- specialize (IHq r Hr H'). lia.
        -- lia.
        -- apply IHr; lia.
Qed.

Record targets_upto (code valid : list Z) (i : Z) : Prop := mkTU {
  tu_len : zlen valid = zlen code;
  tu_start : instr_start code i;
  tu_below : forall d, 0 <= d < i -> d < zlen code ->
    (data_at valid d = 1 /\ jumpdest code d) \/ (data_at valid d = 0 /\ ~ jumpdest code d);
  tu_above : forall d, i <= d -> data_at valid d = 0;
}.

Lemma calc_targets_loop_spec code : zlen code < 2 ^ 63 -> forall fuel valid i,
  targets_upto code valid i -> zlen code - i <= Z.of_nat fuel ->
  exists t i', calc_targets_loop fuel code valid i = Ok t /\ zlen code <= i' /\ targets_upto code t i'.
Proof.
  intros Hsz. induction fuel; intros valid i [Hl Hs Hb Ha] Hf; cbn [calc_targets_loop].
  - destruct (Z.ltb_spec i (zlen code)); [lia|]. exists valid, i. split; [reflexivity|]. split; [lia|]. split; assumption.
  - destruct (Z.ltb_spec i (zlen code)) as [Hlt|Hge].
    2:{ exists valid, i. split; [reflexivity|]. split; [lia|]. split; assumption. }
    pose proof (start_nonneg _ _ Hs) as Hi0.
    rewrite znth_data by lia. change (data_at code i) with (code_at code i).
    set (b := code_at code i). unfold op_PUSH1, op_PUSH32, op_JUMPDEST.
    pose proof (start_next code i Hs Hlt) as Hs'. fold b in Hs'.
    assert (forall d, instr_start code d -> i < d -> i + 1 + push_len b <= d) as Hgap.
    { intros d Hd Hid. apply (start_gap code d Hd i Hs Hid). }
    unfold push_len in *.
    destruct ((96 <=? b) && (b <=? 127)) eqn:E.
    + apply andb_true_iff in E as [E1 E2]. apply Z.leb_le in E1, E2.
      rewrite (u64_small (i + (b - 96 + 1))) by (unpow; lia).
      rewrite u64_small by (unpow; lia).
      replace (i + (b - 96 + 1) + 1) with (i + 1 + (b - 95)) by lia.
      apply IHfuel; [|lia]. split; [assumption|assumption| |].
      * intros d Hd Hdc. destruct (Z_lt_ge_dec d i); [apply Hb; lia|]. right. split; [apply Ha; lia|].
        intros (Hd1 & Hd2 & Hd3). destruct (Z.eq_dec d i) as [->|]; [fold b in Hd3; lia|].
        specialize (Hgap d Hd1 ltac:(lia)). lia.
      * intros d Hd. apply Ha. lia.
    + rewrite Hl. destruct (Z.ltb_spec i (zlen code)); [|lia].
      rewrite u64_small by (unpow; lia). replace (i + 1 + 0) with (i + 1) in Hs' by lia.
      apply IHfuel; [|lia]. split.
      * rewrite list_upd_zlen. assumption.
      * assumption.
      * intros d Hd Hdc. rewrite list_upd_data by lia. destruct (Z.eqb_spec d i) as [->|].
        -- destruct (Z.eqb_spec b 91) as [Eb|Eb].
           ++ left. split; [reflexivity|]. split; [assumption|]. split; assumption.
           ++ right. split; [reflexivity|]. intros (_ & _ & h). apply Eb. exact h.
        -- apply Hb; lia.
      * intros d Hd. rewrite list_upd_data by lia. destruct (Z.eqb_spec d i); [lia|]. apply Ha. lia.
Qed.

(** CalculateValidJumpTargets terminates without undefined behaviour and marks exactly the
    jump destinations *)
Lemma calc_valid_jump_targets_spec code : zlen code < 2 ^ 63 ->
  exists t, calc_valid_jump_targets code = Ok t /\ zlen t = zlen code /\
    forall d, 0 <= d < zlen code ->
      (data_at t d = 1 /\ jumpdest code d) \/ (data_at t d = 0 /\ ~ jumpdest code d).
Proof.
  intros Hsz. unfold calc_valid_jump_targets.
  destruct (calc_targets_loop_spec code Hsz (length code) (repeat 0 (length code)) 0) as (t & i & E & Hi & [T1 T2 T3 T4]).
  - split.
    + unfold zlen. rewrite repeat_length. reflexivity.
    + constructor.
    + intros; lia.
    + intros d Hd. rewrite data_at_nth by lia. apply nth_repeat.
  - unfold zlen. lia.
  - exists t. split; [exact E|]. split; [assumption|]. intros d Hd. apply T3; lia.
Qed.
