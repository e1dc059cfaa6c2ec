(** Proofs about the solvers (CtSolve) against SpecSolve. *)
From Verif Require Import Base CtSolve SpecSolve.

Section Facts.
Variable T : itype.
Hypothesis hs : suitable T.

Notation W := (2 ^ it_width T).

Lemma w_pos : 1 < W. Proof. destruct hs as [hw _]. change 1 with (2 ^ 0). apply Z.pow_lt_mono_r; lia. Qed.
Lemma w_64 : W <= 2 ^ 64. Proof. destruct hs as [hw _]. apply Z.pow_le_mono_r; lia. Qed.
Lemma it_span : it_max T = it_min T + W - 1.
Proof.
  unfold it_max, it_min. destruct (it_signed T); [|lia]. destruct hs as [hw _].
  replace (it_width T) with (Z.succ (it_width T - 1)) at 3 by lia. rewrite Z.pow_succ_r by lia. lia.
Qed.
Lemma it_min_cases : it_min T = 0 \/ W = 2 ^ 64 /\ it_min T = - 2 ^ 63.
Proof. unfold it_min. destruct hs as [hw [h | h]]; rewrite h; [left; reflexivity|]. destruct (it_signed T); [right|left]; [split; reflexivity|reflexivity]. Qed.

Lemma conv_type z : in_type T (conv T z).
Proof. unfold in_type, conv. rewrite it_span. pose proof (Z.mod_pos_bound (z - it_min T) W ltac:(pose proof w_pos; lia)). lia. Qed.
Lemma conv_id z : in_type T z -> conv T z = z.
Proof. unfold in_type, conv. rewrite it_span. intros h. rewrite Z.mod_small; lia. Qed.
Lemma conv_cong a b : conv T (conv T a + b) = conv T (a + b).
Proof.
  unfold conv. f_equal.
  replace ((a - it_min T) mod W + it_min T + b - it_min T) with ((a - it_min T) mod W + b) by lia.
  rewrite Zplus_mod_idemp_l. f_equal. lia.
Qed.
Lemma conv_cong_r a b : conv T (a + conv T b) = conv T (a + b).
Proof. rewrite Z.add_comm, conv_cong. f_equal. lia. Qed.

Lemma u64_conv z : u64 (conv T z) = z mod W.
Proof.
  pose proof w_pos as h1. pose proof w_64 as h2. unfold u64, conv. destruct it_min_cases as [-> | [e ->]].
  - rewrite Z.sub_0_r, Z.add_0_r. apply Z.mod_small. pose proof (Z.mod_pos_bound z W); lia.
  - rewrite e. rewrite Zplus_mod_idemp_l. f_equal. lia.
Qed.

(** RangeSolver *)

Lemma range_add_sound s c v : bounds c ->
  rs_min (range_add s c) <= v <= rs_max (range_add s c) <-> (rs_min s <= v <= rs_max s) /\ obeys v c.
Proof.
  intros hb. destruct c as [b|b|b|lo hi]; [| | |contradiction]; cbn [range_add obeys]; unfold RangeAddEqual, RangeAddUpper, RangeAddLower.
  - destruct (b >? rs_min s) eqn:e; cbn; lia.
  - destruct (b <? rs_max s) eqn:e; cbn; lia.
  - destruct (b >? rs_min s) eqn:e; cbn; destruct (b <? rs_max s) eqn:e2; cbn; lia.
Qed.

Lemma range_sound cs : forall s v, Forall bounds cs ->
  rs_min (fold_left range_add cs s) <= v <= rs_max (fold_left range_add cs s) <-> (rs_min s <= v <= rs_max s) /\ Forall (obeys v) cs.
Proof.
  induction cs as [|c cs IH]; intros s v hb; cbn [fold_left].
  - split; [intros h; split; [exact h|constructor]|intros [h _]; exact h].
  - inversion hb as [|? ? h1 h2]; subst. rewrite IH by exact h2. rewrite range_add_sound by exact h1. rewrite Forall_cons_iff. tauto.
Qed.

Lemma range_types cs : forall s, Forall (typed T) cs -> in_type T (rs_min s) -> in_type T (rs_max s) ->
  in_type T (rs_min (fold_left range_add cs s)) /\ in_type T (rs_max (fold_left range_add cs s)).
Proof.
  induction cs as [|c cs IH]; intros s ht h1 h2; cbn [fold_left]; [split; assumption|].
  inversion ht as [|? ? h3 h4]; subst. apply IH; [exact h4| |];
    destruct c as [b|b|b|lo hi]; cbn [range_add typed] in *; unfold RangeAddEqual, RangeAddUpper, RangeAddLower;
    repeat match goal with |- context [if ?c then _ else _] => destruct c; cbn [rs_min rs_max] end; assumption.
Qed.

Lemma range_generates s : in_type T (rs_min s) -> in_type T (rs_max s) -> generates (fun r => RangeGenerate T r s) (fun v => rs_min s <= v <= rs_max s).
Proof.
  intros h1 h2. pose proof w_pos as hp. pose proof w_64 as hq. pose proof it_span as hsp. unfold in_type in *.
  assert (hd : rs_min s <= rs_max s -> u64 (conv T (rs_max s - rs_min s)) = rs_max s - rs_min s)
    by (intros hle; rewrite u64_conv; apply Z.mod_small; lia).
  unfold RangeGenerate. destruct (rs_min s >? rs_max s) eqn:e; [split; [intros r _ v; lia|intros v; lia]|].
  assert (hle : rs_min s <= rs_max s) by lia. specialize (hd hle). rewrite hd. unfold kU64Max.
  destruct (rs_max s - rs_min s =? 2 ^ 64 - 1) eqn:e2.
  - assert (W = 2 ^ 64) by lia. split.
    + intros r _. pose proof (conv_type (Uint64 r)) as hc. unfold in_type in hc. lia.
    + intros v hv. exists (mkRandom (fun _ => 0) (v mod 2 ^ 64)). split.
      * split; cbn; [intros; lia|apply Z.mod_pos_bound; lia].
      * cbn. f_equal. rewrite <- (conv_id v) at 2 by (unfold in_type; lia). unfold conv. rewrite H. f_equal. rewrite Zminus_mod_idemp_l. reflexivity.
  - assert (hu : u64 (rs_max s - rs_min s + 1) = rs_max s - rs_min s + 1) by (apply Z.mod_small; lia).
    rewrite hu. split.
    + intros r [hr _]. specialize (hr (rs_max s - rs_min s + 1) ltac:(lia)).
      rewrite conv_cong, conv_id by (unfold in_type; lia). lia.
    + intros v hv. exists (mkRandom (fun n => if n =? rs_max s - rs_min s + 1 then v - rs_min s else 0) 0). split.
      * split; cbn; [|lia]. intros n hn. destruct (n =? rs_max s - rs_min s + 1) eqn:e3; lia.
      * cbn. rewrite Z.eqb_refl. rewrite conv_cong, conv_id by (unfold in_type; lia). f_equal. lia.
Qed.

(** IntervalSolver *)

(** Sorted, non-empty, non-adjacent intervals of the type. *)
Fixpoint chain (lo : Z) (s : list interval) : Prop :=
  match s with
  | [] => True
  | i :: s' => lo <= low i <= high i /\ high i <= it_max T /\ chain (high i + 2) s'
  end.

Lemma chain_weaken s : forall lo lo', lo' <= lo -> chain lo s -> chain lo' s.
Proof. destruct s as [|i s]; intros lo lo' hl; cbn; [tauto|]. intros (h1 & h2 & h3). repeat split; try lia. exact h3. Qed.

Lemma contains_range s v : forall lo, chain lo s -> Contains s v = true -> lo <= v <= it_max T.
Proof.
  induction s as [|i s IH]; cbn; intros lo hc hv; [discriminate|]. destruct hc as (h1 & h2 & h3).
  apply orb_true_iff in hv. destruct hv as [hv|hv]; [unfold int_contains in hv; lia|]. specialize (IH _ h3 hv). lia.
Qed.

Lemma contains_last s v : forall lo i, chain lo (i :: s) -> Contains (i :: s) v = true -> low i <= v <= high (last (i :: s) i).
Proof.
  induction s as [|j s IH]; intros lo i hc hv.
  - cbn in *. unfold int_contains in hv. lia.
  - change (last (i :: j :: s) i) with (last (j :: s) i). replace (last (j :: s) i) with (last (j :: s) j).
    2:{ clear. generalize j at 1 3. revert j. induction s as [|k s IH]; intros; [reflexivity|]. cbn [last]. apply IH. }
    destruct hc as (h1 & h2 & h3). cbn [Contains existsb] in hv. apply orb_true_iff in hv. destruct hv as [hv|hv].
    + unfold int_contains in hv.
      assert (hl : forall s j lo, chain lo (j :: s) -> low j <= high (last (j :: s) j)).
      { clear. induction s as [|k s IH]; intros j lo hc; [cbn in *; lia|]. change (last (j :: k :: s) j) with (last (k :: s) j).
        replace (last (k :: s) j) with (last (k :: s) k).
        2:{ clear. generalize k at 1 3. revert k. induction s as [|m s IH]; intros; [reflexivity|]. cbn [last]. apply IH. }
        destruct hc as (h1 & h2 & h3). specialize (IH k _ h3). cbn in h3. lia. }
      specialize (hl s j _ h3). cbn in h3. lia.
    + specialize (IH _ j h3 hv). cbn in h3. lia.
Qed.

Lemma last_type s : forall lo i, it_min T <= lo -> chain lo (i :: s) -> in_type T (high (last (i :: s) i)) /\ in_type T (low i).
Proof.
  intros lo i hl hc. split.
  - revert lo i hl hc. induction s as [|j s IH]; intros lo i hl hc.
    + unfold in_type. cbn in *. lia.
    + change (last (i :: j :: s) i) with (last (j :: s) i). replace (last (j :: s) i) with (last (j :: s) j).
      2:{ clear. generalize j at 1 3. revert j. induction s as [|k s IH]; intros; [reflexivity|]. cbn [last]. apply IH. }
      destruct hc as (h1 & h2 & h3). apply (IH (high i + 2)); [lia|exact h3].
  - unfold in_type. cbn in hc. lia.
Qed.

Lemma exclude_one_sound min max lo i rest v : it_min T <= lo -> in_type T min -> in_type T max -> min <= max ->
  lo <= low i <= high i -> high i <= it_max T -> chain (high i + 2) rest ->
  chain lo (exclude_one T min max i ++ rest) /\
  (Contains (exclude_one T min max i ++ rest) v = true <-> (int_contains i v = true /\ (v < min \/ max < v)) \/ Contains rest v = true).
Proof.
  unfold in_type. intros hl hmin hmax hle h1 h2 h3.
  assert (hA : low i < min -> conv T (min - 1) = min - 1) by (intros; apply conv_id; unfold in_type; lia).
  assert (hB : max < high i -> conv T (max + 1) = max + 1) by (intros; apply conv_id; unfold in_type; lia).
  assert (hw : chain lo rest) by (eapply chain_weaken; [|exact h3]; lia).
  unfold exclude_one, getRelationTo. cbn [low high].
  repeat match goal with |- context [if ?c then _ else _] => destruct c eqn:? end;
    rewrite ?hA, ?hB by lia; cbn [app chain Contains existsb low high int_contains];
    (split; [repeat split; try lia; try assumption; try (eapply chain_weaken; [|exact h3]; lia)|]);
    fold (Contains rest v); unfold int_contains; cbn [low high]; destruct (Contains rest v); try rewrite ?orb_true_r, ?orb_false_r; try lia.
Qed.

Lemma exclude_sound min max v : in_type T min -> in_type T max -> min <= max -> forall s lo, it_min T <= lo -> chain lo s ->
  chain lo (flat_map (exclude_one T min max) s) /\
  (Contains (flat_map (exclude_one T min max) s) v = true <-> Contains s v = true /\ (v < min \/ max < v)).
Proof.
  intros h1 h2 h3. induction s as [|i s IH]; intros lo hl hc; cbn [flat_map].
  - split; [exact Logic.I|cbn; intuition discriminate].
  - destruct hc as (h4 & h5 & h6). destruct (IH (high i + 2) ltac:(lia) h6) as [IHa IHb].
    destruct (exclude_one_sound min max lo i (flat_map (exclude_one T min max) s) v hl h1 h2 h3 h4 h5 IHa) as [A B].
    split; [exact A|]. rewrite B, IHb. cbn [Contains existsb]. rewrite orb_true_iff. fold (Contains s v). tauto.
Qed.

Lemma Exclude_sound min max s v : in_type T min -> in_type T max -> chain (it_min T) s ->
  chain (it_min T) (Exclude T min max s) /\ (Contains (Exclude T min max s) v = true <-> Contains s v = true /\ (v < min \/ max < v)).
Proof.
  intros h1 h2 h3. unfold Exclude. destruct (max <? min) eqn:e; [split; [exact h3|]; split; [intros h; split; [exact h|lia]|intros [h _]; exact h]|].
  apply exclude_sound; [exact h1|exact h2|lia|lia|exact h3].
Qed.

Lemma lower_sound b s v : in_type T b -> chain (it_min T) s ->
  chain (it_min T) (AddLowerBoundary T b s) /\ (Contains (AddLowerBoundary T b s) v = true <-> Contains s v = true /\ b <= v).
Proof.
  intros hb hc. destruct s as [|i s]; cbn [AddLowerBoundary]; [cbn; intuition discriminate|].
  pose proof (contains_last s v _ i hc) as hr. destruct (last_type s (it_min T) i (Z.le_refl _) hc) as [_ hi].
  destruct (b <=? low i) eqn:e.
  - split; [exact hc|]. split; [intros h; split; [exact h|specialize (hr h); lia]|intros [h _]; exact h].
  - assert (hcv : conv T (b - 1) = b - 1) by (apply conv_id; unfold in_type in *; lia). rewrite hcv.
    destruct (Exclude_sound (low i) (b - 1) (i :: s) v hi ltac:(unfold in_type in *; lia) hc) as [A B].
    split; [exact A|]. rewrite B. split; intros [h1 h2]; (split; [exact h1|]); specialize (hr h1); lia.
Qed.

Lemma upper_sound b s v : in_type T b -> chain (it_min T) s ->
  chain (it_min T) (AddUpperBoundary T b s) /\ (Contains (AddUpperBoundary T b s) v = true <-> Contains s v = true /\ v <= b).
Proof.
  intros hb hc. destruct s as [|i s]; [cbn; intuition discriminate|].
  change (AddUpperBoundary T b (i :: s)) with (let max := high (last (i :: s) i) in if b >=? max then i :: s else Exclude T (conv T (b + 1)) max (i :: s)). cbv zeta.
  pose proof (contains_last s v _ i hc) as hr. destruct (last_type s (it_min T) i (Z.le_refl _) hc) as [hi _].
  destruct (b >=? high (last (i :: s) i)) eqn:e.
  - split; [exact hc|]. split; [intros h; split; [exact h|specialize (hr h); lia]|intros [h _]; exact h].
  - assert (hcv : conv T (b + 1) = b + 1) by (apply conv_id; unfold in_type in *; lia). rewrite hcv.
    destruct (Exclude_sound (b + 1) (high (last (i :: s) i)) (i :: s) v ltac:(unfold in_type in *; lia) hi hc) as [A B].
    split; [exact A|]. rewrite B. split; intros [h1 h2]; (split; [exact h1|]); specialize (hr h1); lia.
Qed.

Lemma add_sound c s v : typed T c -> chain (it_min T) s ->
  chain (it_min T) (interval_add T s c) /\ (Contains (interval_add T s c) v = true <-> Contains s v = true /\ obeys v c).
Proof.
  intros ht hc. destruct c as [b|b|b|lo hi]; cbn [interval_add obeys typed] in *.
  - apply lower_sound; assumption.
  - apply upper_sound; assumption.
  - unfold AddEqualityConstraint. destruct (upper_sound b s v ht hc) as [A B]. destruct (lower_sound b (AddUpperBoundary T b s) v ht A) as [C D].
    split; [exact C|]. rewrite D, B. split; [intros [[h1 h2] h3]; split; [exact h1|lia]|intros [h1 h2]; repeat split; [exact h1|lia|lia]].
  - destruct ht as [h1 h2]. apply Exclude_sound; assumption.
Qed.

Lemma adds_sound cs v : forall s, Forall (typed T) cs -> chain (it_min T) s ->
  chain (it_min T) (fold_left (interval_add T) cs s) /\ (Contains (fold_left (interval_add T) cs s) v = true <-> Contains s v = true /\ Forall (obeys v) cs).
Proof.
  induction cs as [|c cs IH]; intros s ht hc; cbn [fold_left].
  - split; [exact hc|]. split; [intros h; split; [exact h|constructor]|intros [h _]; exact h].
  - inversion ht as [|? ? h1 h2]; subst. destruct (add_sound c s v h1 hc) as [A B]. destruct (IH _ h2 A) as [C D].
    split; [exact C|]. rewrite D, B, Forall_cons_iff. tauto.
Qed.

Lemma new_sound min max v : in_type T min -> in_type T max ->
  chain (it_min T) (NewIntervalSolver min max) /\ (Contains (NewIntervalSolver min max) v = true <-> min <= v <= max).
Proof.
  unfold in_type, NewIntervalSolver, int_isEmpty. cbn [low high]. intros h1 h2.
  destruct (min >? max) eqn:e; [cbn; intuition (try discriminate); lia|]. cbn. unfold int_contains; cbn. split; [lia|]. rewrite orb_false_r. lia.
Qed.

(** Generate *)

Definition count (s : list interval) : Z := fold_right (fun i n => high i - low i + 1 + n) 0 s.

Lemma count_cons i s : count (i :: s) = high i - low i + 1 + count s.
Proof. reflexivity. Qed.

Lemma count_bound s : forall lo, chain lo s -> 0 <= count s /\ (s <> [] -> count s <= it_max T - lo + 1).
Proof.
  induction s as [|i s IH]; intros lo hc; [split; [cbn; lia|congruence]|]. destruct hc as (h1 & h2 & h3). destruct (IH _ h3) as [A B].
  rewrite count_cons. destruct s as [|j s]; [cbn in *; split; [lia|intros _; lia]|]. specialize (B ltac:(discriminate)). split; [lia|intros _; lia].
Qed.

Lemma int_size_eq i : int_size T i = (high i - low i + 1) mod W.
Proof. unfold int_size. rewrite conv_cong. apply u64_conv. Qed.

Lemma domain_eq s : forall d, 0 <= d -> d + count s < 2 ^ 64 -> Forall (fun i => low i <= high i /\ high i - low i + 1 < W) s ->
  fold_left (fun d i => u64 (d + int_size T i)) s d = d + count s.
Proof.
  induction s as [|i s IH]; intros d hd hc hf; cbn [fold_left count fold_right] in *; [lia|]. inversion hf as [|? ? h1 h2]; subst.
  assert (hn : 0 <= count s) by (clear -h2; induction h2 as [|j l hj _ IH]; [cbn; lia|change (0 <= high j - low j + 1 + count l); lia]).
  fold (count s) in hc. rewrite int_size_eq, (Z.mod_small _ W) by lia. unfold u64. rewrite Z.mod_small by lia.
  rewrite IH; [fold (count s); lia|lia|fold (count s); lia|exact h2].
Qed.

Lemma pick_sound s : forall lo k, it_min T <= lo -> chain lo s -> Forall (fun i => low i <= high i /\ high i - low i + 1 < W) s -> 0 <= k < count s ->
  exists v, pick_sample T s k = Value v /\ Contains s v = true.
Proof.
  pose proof w_64 as hq.
  induction s as [|i s IH]; intros lo k hl hc hf hk; cbn [pick_sample count fold_right] in *; [lia|]. inversion hf as [|? ? h1 h2]; subst.
  destruct hc as (h3 & h4 & h5). fold (count s) in hk. rewrite int_size_eq, Z.mod_small by lia. destruct (high i - low i + 1 >? k) eqn:e.
  - eexists. split; [reflexivity|]. rewrite conv_cong_r, conv_id by (unfold in_type; lia). cbn. unfold int_contains. lia.
  - destruct (count_bound s _ h5) as [hn hm]. assert (hb : count s <= W).
    { destruct s; [pose proof w_pos; cbn; lia|]. specialize (hm ltac:(discriminate)). rewrite it_span in hm. lia. }
    unfold u64. rewrite Z.mod_small by lia.
    destruct (IH (high i + 2) (k - (high i - low i + 1)) ltac:(lia) h5 h2 ltac:(lia)) as (v & A & B).
    exists v. split; [exact A|]. cbn. fold (Contains s v). rewrite B. apply orb_true_r.
Qed.

Lemma pick_complete s v : forall lo, it_min T <= lo -> chain lo s -> Forall (fun i => low i <= high i /\ high i - low i + 1 < W) s -> Contains s v = true ->
  exists k, 0 <= k < count s /\ pick_sample T s k = Value v.
Proof.
  pose proof w_64 as hq.
  induction s as [|i s IH]; intros lo hl hc hf hv; cbn [Contains existsb] in hv; [discriminate|]. inversion hf as [|? ? h1 h2]; subst.
  destruct hc as (h3 & h4 & h5). destruct (count_bound s _ h5) as [hn hm]. apply orb_true_iff in hv.
  destruct (int_contains i v) eqn:e.
  - unfold int_contains in e. exists (v - low i). cbn [count fold_right pick_sample]. fold (count s). split; [lia|].
    rewrite int_size_eq, Z.mod_small by lia. destruct (high i - low i + 1 >? v - low i) eqn:e2; [|lia].
    rewrite conv_cong_r, conv_id by (unfold in_type; lia). f_equal. lia.
  - destruct hv as [hv|hv]; [discriminate|]. destruct (IH (high i + 2) ltac:(lia) h5 h2 hv) as (k & hk & A).
    assert (hb : count s <= W).
    { destruct s; [cbn in hk; lia|]. specialize (hm ltac:(discriminate)). rewrite it_span in hm. lia. }
    exists (k + (high i - low i + 1)). cbn [count fold_right pick_sample]. fold (count s). split; [lia|].
    rewrite int_size_eq, (Z.mod_small (high i - low i + 1)) by lia. destruct (high i - low i + 1 >? k + (high i - low i + 1)) eqn:e2; [lia|].
    unfold u64. rewrite Z.mod_small by lia. replace (k + (high i - low i + 1) - (high i - low i + 1)) with k by lia. exact A.
Qed.

Lemma chain_sizes s : forall lo, chain lo s -> it_min T <= lo -> count s < W -> Forall (fun i => low i <= high i /\ high i - low i + 1 < W) s.
Proof.
  induction s as [|i s IH]; intros lo hc hl hn; constructor.
  - destruct hc as (h1 & h2 & h3). destruct (count_bound s _ h3) as [hz _]. cbn in hn. fold (count s) in hn. lia.
  - destruct hc as (h1 & h2 & h3). apply (IH (high i + 2)); [exact h3|lia|]. cbn in hn. fold (count s) in hn. lia.
Qed.

Lemma interval_generates s : chain (it_min T) s -> generates (fun r => Generate T r s) (fun v => Contains s v = true).
Proof.
  intros hc. pose proof w_pos as hp. pose proof w_64 as hq. pose proof it_span as hsp. destruct s as [|i s].
  { split; cbn; [intros r _ v; discriminate|intros v; discriminate]. }
  assert (hg : forall r, Generate T r (i :: s) = if domainSize T (i :: s) =? 0 then Value (conv T (Uint64 r)) else pick_sample T (i :: s) (Uint64n r (domainSize T (i :: s)))) by reflexivity.
  destruct (count_bound _ _ hc) as [hn hm]. specialize (hm ltac:(discriminate)).
  assert (hcase : count (i :: s) < W \/ (s = [] /\ low i = it_min T /\ high i = it_max T)).
  { destruct hc as (h1 & h2 & h3). cbn in hm |- *. fold (count s) in *. destruct (count_bound s _ h3) as [hn' hm'].
    destruct s as [|j s]; [cbn in *|specialize (hm' ltac:(discriminate)); left; lia].
    destruct (Z.eq_dec (low i) (it_min T)); [|left; lia]. destruct (Z.eq_dec (high i) (it_max T)); [right; auto|left; lia]. }
  destruct hcase as [hlt|(-> & hlo & hhi)].
  - assert (hf := chain_sizes _ _ hc ltac:(lia) hlt).
    assert (hd : domainSize T (i :: s) = count (i :: s)) by (unfold domainSize; rewrite domain_eq; [lia|lia|lia|exact hf]).
    assert (hpos : 0 < count (i :: s)).
    { destruct hc as (h1 & h2 & h3). cbn. fold (count s). destruct (count_bound s _ h3) as [hn' _]. lia. }
    split.
    + intros r [hr _]. rewrite hg, hd. destruct (count (i :: s) =? 0) eqn:e; [lia|].
      destruct (pick_sound _ (it_min T) (Uint64n r (count (i :: s))) ltac:(lia) hc hf (hr _ hpos)) as (v & A & B). rewrite A. exact B.
    + intros v hv. destruct (pick_complete _ v (it_min T) (Z.le_refl _) hc hf hv) as (k & hk & A).
      exists (mkRandom (fun n => if n =? count (i :: s) then k else 0) 0). split.
      * split; cbn -[count]; [|lia]. intros n hnn. destruct (n =? count (i :: s)) eqn:e; lia.
      * rewrite hg, hd. destruct (count (i :: s) =? 0) eqn:e; [lia|]. cbn [Uint64n]. rewrite Z.eqb_refl. exact A.
  - assert (hd : domainSize T [i] = 0).
    { unfold domainSize. cbn [fold_left]. rewrite int_size_eq. replace (high i - low i + 1) with W by lia. rewrite Z.mod_same by lia. reflexivity. }
    assert (hall : forall v, in_type T v -> Contains [i] v = true) by (intros v hv; cbn; unfold int_contains, in_type in *; lia).
    split.
    + intros r _. rewrite hg, hd. cbn [Z.eqb]. apply hall, conv_type.
    + intros v hv. exists (mkRandom (fun _ => 0) (v mod W)). split.
      * split; cbn; [intros; lia|]. pose proof (Z.mod_pos_bound v W). lia.
      * rewrite hg, hd. cbn [Z.eqb Uint64]. f_equal. pose proof (contains_range _ _ _ hc hv) as hr.
        rewrite <- (conv_id v) at 2 by (unfold in_type; lia). unfold conv. f_equal. rewrite Zminus_mod_idemp_l. reflexivity.
Qed.

End Facts.

(** The properties *)

Theorem range_solver_correct T min max cs : suitable T -> in_type T min -> in_type T max -> Forall (typed T) cs -> Forall bounds cs ->
  generates (fun r => RangeGenerate T r (range_solver min max cs)) (solution min max cs) /\
  (RangeIsSatisfiable (range_solver min max cs) = true <-> exists v, solution min max cs v).
Proof.
  intros hs h1 h2 ht hb. unfold solution, range_solver.
  set (s := fold_left range_add cs (NewRangeSolver min max)).
  assert (he : forall v, rs_min s <= v <= rs_max s <-> min <= v <= max /\ Forall (obeys v) cs) by (intros v; apply (range_sound cs (NewRangeSolver min max) v hb)).
  destruct (range_types T cs (NewRangeSolver min max) ht h1 h2) as [ha hm].
  destruct (range_generates T hs s ha hm) as [A B]. split.
  - split.
    + intros r hr. specialize (A r hr). cbn beta in A |- *. destruct (RangeGenerate T r s); [apply he; exact A|intros v hv; apply (A v), he; exact hv|exact A].
    + intros v hv. apply B, he. exact hv.
  - unfold RangeIsSatisfiable. split.
    + intros h. exists (rs_min s). apply he. lia.
    + intros (v & hv). apply he in hv. lia.
Qed.

Theorem interval_solver_correct T min max cs : suitable T -> in_type T min -> in_type T max -> Forall (typed T) cs ->
  generates (fun r => Generate T r (interval_solver T min max cs)) (solution min max cs) /\
  (IsSatisfiable (interval_solver T min max cs) = true <-> exists v, solution min max cs v) /\
  (forall v, Contains (interval_solver T min max cs) v = true <-> solution min max cs v).
Proof.
  intros hs h1 h2 ht. unfold solution, interval_solver. set (s := fold_left (interval_add T) cs (NewIntervalSolver min max)).
  assert (hc : chain T (it_min T) s) by (apply (adds_sound T hs cs 0 _ ht); apply (new_sound T min max 0 h1 h2)).
  assert (he : forall v, Contains s v = true <-> min <= v <= max /\ Forall (obeys v) cs).
  { intros v. unfold s. destruct (new_sound T min max v h1 h2) as [C D]. rewrite <- D. apply (adds_sound T hs cs v _ ht C). }
  destruct (interval_generates T hs s hc) as [A B]. split; [|split].
  - split.
    + intros r hr. specialize (A r hr). cbn beta in A |- *. destruct (Generate T r s); [apply he; exact A|intros v hv; apply (A v), he; exact hv|exact A].
    + intros v hv. apply B, he. exact hv.
  - unfold IsSatisfiable. clearbody s; destruct s as [|i s].
    + cbn. split; [discriminate|]. intros (v & hv). apply he in hv. cbn in hv. discriminate.
    + split; [|reflexivity]. intros _. exists (low i). apply he. cbn in hc |- *. unfold int_contains. destruct hc as (h & _). apply orb_true_iff. left. lia.
  - exact he.
Qed.
