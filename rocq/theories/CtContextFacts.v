(** Facts about the generator of transaction contexts. *)
From Verif Require Import Base CtSolve SpecSolve CtSolveFacts CtGen SpecGen CtStackFacts CtContext SpecContext CtTransientFacts.
From Coq Require Import Lia ZArith List Bool Permutation.
Import ListNotations.
Open Scope Z_scope.

Lemma lookup_none l x : lookup l x = None -> ~ In x (map fst l).
Proof.
  unfold lookup. destruct (find (fun p => fst p =? x) l) eqn:e; [discriminate|]. intros _ hi. apply in_map_iff in hi. destruct hi as (p & hp & hi).
  pose proof (find_none _ _ e p hi) as n. cbn in n. rewrite hp, Z.eqb_refl in n. discriminate.
Qed.
Lemma lookup_some l x v : lookup l x = Some v -> In (x, v) l.
Proof.
  unfold lookup. destruct (find (fun p => fst p =? x) l) as [[y w]|] eqn:e; [|discriminate]. intros ev. apply find_some in e. destruct e as [hi he]. cbn in *. apply Z.eqb_eq in he. congruence.
Qed.

Definition request_of (e : Z * bool) : blob_request := if snd e then Present (fst e) else Absent (fst e).
Lemma tx_lists qs : let t := tx_generator qs in
  tg_unsat t = true /\ (exists x, In (Present x) qs /\ In (Absent x) qs) \/
  tg_unsat t = false /\ NoDup (map fst (tg_vars t)) /\ (forall x h, In (x, h) (tg_vars t) <-> In (request_of (x, h)) qs).
Proof.
  cbv zeta. induction qs as [|q qs ih] using rev_ind.
  - right. split; [reflexivity|]. split; [constructor|]. intros x h. cbn. tauto.
  - unfold tx_generator. rewrite fold_left_app. cbn [fold_left]. fold (tx_generator qs). set (t := tx_generator qs) in *.
    destruct ih as [(hu & x & h1 & h2)|(hu & hd & hi)].
    + left. split; [|exists x; rewrite !in_app_iff; tauto]. destruct q; cbn [blob_call]; unfold IsPresentBlobHashIndex, IsAbsentBlobHashIndex, BlobHashIndex; rewrite hu; exact hu.
    + assert (step : forall present x, q = request_of (x, present) ->
        let t' := BlobHashIndex present x t in
        tg_unsat t' = true /\ (exists x, In (Present x) (qs ++ [q]) /\ In (Absent x) (qs ++ [q])) \/
        tg_unsat t' = false /\ NoDup (map fst (tg_vars t')) /\ (forall x h, In (x, h) (tg_vars t') <-> In (request_of (x, h)) (qs ++ [q]))).
      { intros present x eq. cbv zeta. unfold BlobHashIndex. rewrite hu. destruct (lookup (tg_vars t) x) as [val|] eqn:el.
        - apply lookup_some in el. apply hi in el. destruct (Bool.eqb val present) eqn:eb.
          + apply eqb_prop in eb. subst val. right. split; [exact hu|]. split; [exact hd|]. intros y h. rewrite in_app_iff, <- hi. split; [tauto|]. intros [a|[a|[]]]; [exact a|]. rewrite eq in a. apply hi. rewrite <- a. exact el.
          + left. split; [reflexivity|]. exists x. rewrite !in_app_iff. cbn [In]. rewrite eq. destruct val, present; cbn [request_of snd fst] in *; try discriminate eb; tauto.
        - apply lookup_none in el. right. cbn [tg_unsat tg_vars]. split; [reflexivity|]. rewrite map_app. cbn [map fst]. split.
          + apply nodup_snoc; assumption.
          + intros y h. rewrite !in_app_iff, hi. cbn [In]. rewrite eq. split; intros [a|[a|[]]]; try tauto; right; left; [congruence|].
            destruct present, h; cbn [request_of snd fst] in a; congruence. }
      destruct q as [x|x]; [exact (step true x eq_refl)|exact (step false x eq_refl)].
Qed.

Lemma bound_spec a : words a -> forall order most least, 0 <= most < 2 ^ 64 -> 0 <= least < 2 ^ 64 ->
  match bound_indices a order most least with
  | Generated (m, l) =>
    most <= m < 2 ^ 64 /\ 0 <= l <= least /\
    (forall x v, In (x, true) order -> a x = Some v -> v <= m) /\
    (forall x v, In (x, false) order -> a x = Some v -> l <= v) /\
    (m = most \/ exists x, In (x, true) order /\ a x = Some m) /\
    (l = least \/ exists x, In (x, false) order /\ a x = Some l)
  | ErrUnsatisfiable => exists x v, In (x, true) order /\ a x = Some v /\ 2 ^ 64 <= v
  | _ => False
  end.
Proof.
  intros ha order. induction order as [|[x h] order ih]; intros most least hm hl.
  - cbn. repeat split; try lia; try tauto; try left; lia.
  - cbn [bound_indices]. destruct (a x) as [v|] eqn:ex.
    + pose proof (ha x v ex) as hv. unfold is_word in hv. destruct h.
      * unfold IsUint64. destruct (Z.ltb_spec v (2 ^ 64)) as [hs|hs]; cbn [negb].
        2:{ exists x, v. split; [left; reflexivity|]. split; [exact ex|exact hs]. }
        set (most' := if v >? most then v else most) in *.
        assert (hm' : 0 <= most' < 2 ^ 64 /\ most <= most' /\ v <= most' /\ (most' = most \/ most' = v)) by (unfold most'; destruct (Z.gtb_spec v most); lia).
        clearbody most'. specialize (ih most' least ltac:(lia) hl). destruct (bound_indices a order most' least) as [[m l]| | | |]; try contradiction.
        -- destruct ih as (i1 & i2 & i3 & i4 & i5 & i6). repeat apply conj; try lia.
           ++ intros y w [e|i] ey; [injection e as -> |exact (i3 y w i ey)]. rewrite ex in ey. injection ey as ->. lia.
           ++ intros y w [e|i] ey; [discriminate e|exact (i4 y w i ey)].
           ++ destruct i5 as [-> |(y & i & ey)]; [|right; exists y; split; [right; exact i|exact ey]]. destruct hm' as (_ & _ & _ & [-> | ->]); [left; reflexivity|]. right. exists x. split; [left; reflexivity|exact ex].
           ++ destruct i6 as [-> |(y & i & ey)]; [left; reflexivity|]. right. exists y. split; [right; exact i|exact ey].
        -- destruct ih as (y & w & i & ey & hw). exists y, w. split; [right; exact i|]. split; assumption.
      * set (least' := if IsUint64 v && (v <? least) then v else least) in *.
        assert (hl' : 0 <= least' < 2 ^ 64 /\ least' <= least /\ least' <= v /\ (least' = least \/ least' = v)).
        { unfold least', IsUint64. destruct (Z.ltb_spec v (2 ^ 64)), (Z.ltb_spec v least); cbn [andb]; lia. }
        clearbody least'. specialize (ih most least' hm ltac:(lia)). destruct (bound_indices a order most least') as [[m l]| | | |]; try contradiction.
        -- destruct ih as (i1 & i2 & i3 & i4 & i5 & i6). repeat apply conj; try lia.
           ++ intros y w [e|i] ey; [discriminate e|exact (i3 y w i ey)].
           ++ intros y w [e|i] ey; [injection e as -> |exact (i4 y w i ey)]. rewrite ex in ey. injection ey as ->. lia.
           ++ destruct i5 as [-> |(y & i & ey)]; [left; reflexivity|]. right. exists y. split; [right; exact i|exact ey].
           ++ destruct i6 as [-> |(y & i & ey)]; [|right; exists y; split; [right; exact i|exact ey]]. destruct hl' as (_ & _ & _ & [-> | ->]); [left; reflexivity|]. right. exists x. split; [left; reflexivity|exact ex].
        -- destruct ih as (y & w & i & ey & hw). exists y, w. split; [right; exact i|]. split; assumption.
    + specialize (ih most least hm hl). destruct (bound_indices a order most least) as [[m l]| | | |]; try contradiction.
      * destruct ih as (i1 & i2 & i3 & i4 & i5 & i6). repeat apply conj; try lia.
        -- intros y w [e|i] ey; [injection e as -> ->; congruence|exact (i3 y w i ey)].
        -- intros y w [e|i] ey; [injection e as -> ->; congruence|exact (i4 y w i ey)].
        -- destruct i5 as [-> |(y & i & ey)]; [left; reflexivity|]. right. exists y. split; [right; exact i|exact ey].
        -- destruct i6 as [-> |(y & i & ey)]; [left; reflexivity|]. right. exists y. split; [right; exact i|exact ey].
      * destruct ih as (y & w & i & ey & hw). exists y, w. split; [right; exact i|]. split; assumption.
Qed.

Lemma suitable_uint64 : suitable tUint64.
Proof. split; [cbn; lia|left; reflexivity]. Qed.
Lemma range_solved r lo hi : proper r -> 0 <= lo <= hi -> hi < 2 ^ 64 -> exists v, solved (RangeGenerate tUint64 r (NewRangeSolver lo hi)) = Generated v /\ lo <= v <= hi.
Proof.
  intros hr h1 h2. destruct (range_generates tUint64 suitable_uint64 (NewRangeSolver lo hi)) as [A _]; [unfold in_type, it_min, it_max; cbn -[Z.pow]; lia|unfold in_type, it_min, it_max; cbn -[Z.pow]; lia|]. specialize (A r hr). cbn [rs_min rs_max NewRangeSolver] in A.
  destruct (RangeGenerate tUint64 r (NewRangeSolver lo hi)) as [v| |]; [exists v; split; [reflexivity|exact A]| |contradiction]. exfalso. exact (A lo ltac:(lia)).
Qed.
Lemma uint64_small v : 0 <= v < 2 ^ 64 -> uint64 v = v.
Proof. intros h. apply Z.mod_small. exact h. Qed.
Lemma bind_spec rnd count : (forall i, proper (rnd i)) -> 0 <= count < 2 ^ 64 -> forall order i a, NoDup (map fst order) ->
  exists b, bind_indices rnd i count order a = Generated b /\ extends a b /\ (forall x, ~ In x (map fst order) -> b x = a x) /\
    (forall x h, In (x, h) order -> a x = None -> exists v, b x = Some v /\ if h then 0 <= v <= uint64 (count - 1) else count <= v < 2 ^ 64).
Proof.
  intros hr hc order. induction order as [|[x h] order ih]; intros i a hd.
  - exists a. split; [reflexivity|]. split; [intros y v e; exact e|]. split; [reflexivity|]. intros y h [].
  - cbn [bind_indices]. cbn [map fst] in hd. apply NoDup_cons_iff in hd. destruct hd as [hx hd]. destruct (a x) as [v|] eqn:ex.
    + destruct (ih (S i) a hd) as (b & eb & hb & hk & hu). exists b. split; [exact eb|]. split; [exact hb|]. split.
      * intros y hy. apply hk. intros hi. apply hy. right. exact hi.
      * intros y h' [e|hi] ey; [injection e as <- <-; congruence|exact (hu y h' hi ey)].
    + assert (hv : exists v, solved (RangeGenerate tUint64 (rnd i) (if h then NewRangeSolver 0 (uint64 (count - 1)) else NewRangeSolver count (2 ^ 64 - 1))) = Generated v /\ (if h then 0 <= v <= uint64 (count - 1) else count <= v < 2 ^ 64)).
      { pose proof (Z.mod_pos_bound (count - 1) (2 ^ 64) ltac:(lia)) as hu. fold (uint64 (count - 1)) in hu. destruct h.
        - destruct (range_solved (rnd i) 0 (uint64 (count - 1)) (hr i) ltac:(lia) ltac:(lia)) as (v & e & hv). exists v. split; [exact e|exact hv].
        - destruct (range_solved (rnd i) count (2 ^ 64 - 1) (hr i) ltac:(lia) ltac:(lia)) as (v & e & hv). exists v. split; [exact e|lia]. }
      destruct hv as (v & ev & hv). rewrite ev. cbn [gbind]. destruct (ih (S i) (put a x v) hd) as (b & eb & hb & hk & hu). exists b. split; [exact eb|]. split; [|split].
      * intros y w ey. apply hb. unfold put. destruct (Z.eqb_spec y x) as [->|n]; [congruence|exact ey].
      * intros y hy. rewrite hk; [|intros hi; apply hy; right; exact hi]. unfold put. destruct (Z.eqb_spec y x) as [->|n]; [exfalso; apply hy; left; reflexivity|reflexivity].
      * intros y h' [e|hi] ey.
        -- injection e as <- <-. exists v. split; [|exact hv]. rewrite hk by exact hx. unfold put. rewrite Z.eqb_refl. reflexivity.
        -- apply (hu y h' hi). unfold put. destruct (Z.eqb_spec y x) as [->|n]; [|exact ey]. exfalso. apply hx. apply in_map_iff. exists (x, h'). split; [reflexivity|exact hi].
Qed.

Section Tx.
Variable rnd : nat -> random.
Hypothesis hrnd : forall i, proper (rnd i).
Variable a : Assignment.
Hypothesis ha : words a.
Variable qs : list blob_request.
Variables order order' : list (Z * bool).
Hypothesis ho : Permutation order (tg_vars (tx_generator qs)).
Hypothesis ho' : Permutation order' (tg_vars (tx_generator qs)).
Hypothesis hu : tg_unsat (tx_generator qs) = false.

Lemma tx_facts : NoDup (map fst order') /\ (forall x h, In (x, h) order <-> In (request_of (x, h)) qs) /\ (forall x h, In (x, h) order' <-> In (request_of (x, h)) qs).
Proof.
  destruct (tx_lists qs) as [(e & _)|(_ & hd & hi)]; [congruence|]. split; [|split].
  - apply (Permutation_NoDup (l := map fst (tg_vars (tx_generator qs)))); [apply Permutation_map; symmetry; exact ho'|exact hd].
  - intros x h. rewrite <- hi. split; apply Permutation_in; [exact ho|symmetry; exact ho].
  - intros x h. rewrite <- hi. split; apply Permutation_in; [exact ho'|symmetry; exact ho'].
Qed.
Lemma tx_core m l : ~ blob_edge a qs -> bound_indices a order 0 (2 ^ 64 - 1) = Generated (m, l) -> m <= l -> m <> 2 ^ 64 - 1 ->
  exists b, TxGenerate rnd order order' a (tx_generator qs) = Generated (uint64 (if negb (l =? 0) then m + 1 else m), b) /\
    0 <= uint64 (if negb (l =? 0) then m + 1 else m) < 2 ^ 64 /\ extends a b /\ Forall (blob_fulfils (uint64 (if negb (l =? 0) then m + 1 else m)) b) qs.
Proof.
  intros hedge eb hml hm. destruct tx_facts as (hd & hi & hi').
  pose proof (bound_spec a ha order 0 (2 ^ 64 - 1) ltac:(lia) ltac:(lia)) as B. rewrite eb in B. destruct B as (b1 & b2 & b3 & b4 & b5 & b6).
  set (count := uint64 (if negb (l =? 0) then m + 1 else m)).
  assert (hc : 0 <= count < 2 ^ 64 /\ (l <> 0 -> count = m + 1) /\ (l = 0 -> count = 0)).
  { unfold count. destruct (Z.eqb_spec l 0); cbn [negb]; rewrite uint64_small by lia; lia. }
  clearbody count. destruct hc as (hc & hc1 & hc0).
  destruct (bind_spec rnd count hrnd hc order' 0 a hd) as (b & ebi & hb & _ & hf). exists b.
  split; [unfold TxGenerate; rewrite hu, eb; cbn [gbind]|split; [exact hc|split; [exact hb|]]].
  { destruct (Z.gtb_spec m l); [lia|]. destruct (Z.eqb_spec m (2 ^ 64 - 1)); [lia|]. cbn [orb]. cbv zeta.
    replace (uint64 (if negb (l =? 0) then m + 1 else m)) with count; [rewrite ebi; reflexivity|].
    destruct (Z.eqb_spec l 0); cbn [negb]; rewrite uint64_small by lia; lia. }
  apply Forall_forall. intros [x|x] hq; cbn [blob_fulfils].
  - destruct (a x) as [v|] eqn:ex.
    + exists v. split; [apply hb; exact ex|]. pose proof (ha x v ex) as hv. unfold is_word in hv. assert (hvm : v <= m) by (apply (b3 x v); [apply hi; exact hq|exact ex]).
      destruct (Z.eq_dec l 0) as [e0|n0]; [|lia]. exfalso. destruct b6 as [b6|(y & hy & ey)]; [lia|]. apply hedge. exists x, y, 0. apply hi in hy. cbn in hy.
      split; [exact hq|]. split; [exact hy|]. split; [congruence|]. left. assert (v = 0) by lia. congruence.
    + destruct (hf x true (proj2 (hi' x true) hq) ex) as (v & ev & hv). exists v. split; [exact ev|].
      destruct (Z.eq_dec l 0) as [e0|n0]; [|rewrite uint64_small in hv by lia; lia]. exfalso. destruct b6 as [b6|(y & hy & ey)]; [lia|]. apply hedge. exists x, y, 0. apply hi in hy. cbn in hy.
      split; [exact hq|]. split; [exact hy|]. split; [congruence|]. right. split; [exact ex|reflexivity].
  - destruct (a x) as [v|] eqn:ex.
    + exists v. split; [apply hb; exact ex|]. pose proof (ha x v ex) as hv. unfold is_word in hv. split; [|lia]. assert (hvl : l <= v) by (apply (b4 x v); [apply hi; exact hq|exact ex]).
      destruct (Z.eq_dec l 0) as [e0|n0]; [lia|]. rewrite hc1 by exact n0. destruct (Z.eq_dec v m) as [e|n]; [|lia]. exfalso.
      destruct b5 as [b5|(y & hy & ey)]; [lia|]. apply hedge. exists y, x, m. apply hi in hy. cbn in hy. split; [exact hy|]. split; [exact hq|]. split; [congruence|left; exact ey].
    + destruct (hf x false (proj2 (hi' x false) hq) ex) as (v & ev & hv). exists v. split; [exact ev|]. lia.
Qed.
End Tx.

Lemma possible_no_conflict a qs : blobs_possible a qs -> forall x, ~ (In (Present x) qs /\ In (Absent x) qs).
Proof.
  intros (c & b & hc & hb & hf) x [h1 h2]. rewrite Forall_forall in hf. destruct (hf _ h1) as (k & e & hk). destruct (hf _ h2) as (k' & e' & hk'). assert (k = k') by congruence. lia.
Qed.
Lemma edge_impossible a qs : blob_edge a qs -> ~ blobs_possible a qs.
Proof.
  intros (x & y & m & hx & hy & ey & ex) (c & b & hc & hb & hf). rewrite Forall_forall in hf. destruct (hf _ hx) as (k & e & hk). destruct (hf _ hy) as (k' & e' & hk').
  apply hb in ey. assert (h' : k' = m) by congruence. destruct ex as [ex|[_ h0]]; [apply hb in ex; assert (h : k = m) by congruence|]; lia.
Qed.
Lemma tx_generates rnd a qs order order' : (forall i, proper (rnd i)) -> words a ->
  Permutation order (tg_vars (tx_generator qs)) -> Permutation order' (tg_vars (tx_generator qs)) ->
  blobs_possible a qs ->
  exists count b, TxGenerate rnd order order' a (tx_generator qs) = Generated (count, b) /\ 0 <= count < 2 ^ 64 /\ extends a b /\ Forall (blob_fulfils count b) qs.
Proof.
  intros hr ha ho ho' hp. pose proof (possible_no_conflict a qs hp) as hn. destruct (tx_lists qs) as [(_ & x & h)|(hu & _ & hi0)]; [exfalso; exact (hn x h)|].
  assert (hedge : ~ blob_edge a qs) by (intros h; exact (edge_impossible a qs h hp)).
  assert (hi : forall x h, In (x, h) order <-> In (request_of (x, h)) qs) by (intros x h; rewrite <- hi0; split; apply Permutation_in; [exact ho|symmetry; exact ho]).
  destruct hp as (c & b0 & hc & hb & hf). rewrite Forall_forall in hf.
  assert (hpres : forall x v, In (x, true) order -> a x = Some v -> v < c).
  { intros x v i e. apply hi in i. destruct (hf _ i) as (k & ek & hk). cbn in ek. apply hb in e. assert (k = v) by congruence. lia. }
  assert (habs : forall x v, In (x, false) order -> a x = Some v -> c <= v).
  { intros x v i e. apply hi in i. destruct (hf _ i) as (k & ek & hk). cbn in ek. apply hb in e. assert (k = v) by congruence. lia. }
  pose proof (bound_spec a ha order 0 (2 ^ 64 - 1) ltac:(lia) ltac:(lia)) as B. destruct (bound_indices a order 0 (2 ^ 64 - 1)) as [[m l]| | | |] eqn:eb; try contradiction.
  2:{ exfalso. destruct B as (x & v & i & e & hv). specialize (hpres x v i e). lia. }
  destruct B as (b1 & b2 & b3 & b4 & b5 & b6).
  assert (hmc : m = 0 \/ m < c) by (destruct b5 as [->|(x & i & e)]; [left; reflexivity|right; exact (hpres x m i e)]).
  assert (hlc : l = 2 ^ 64 - 1 \/ c <= l) by (destruct b6 as [->|(x & i & e)]; [left; reflexivity|right; exact (habs x l i e)]).
  destruct (tx_core rnd hr a ha qs order order' ho ho' hu m l hedge eb ltac:(lia) ltac:(lia)) as (b & hb1). eexists. exists b. exact hb1.
Qed.
Lemma tx_errors rnd a qs order order' : (forall i, proper (rnd i)) -> words a ->
  Permutation order (tg_vars (tx_generator qs)) -> Permutation order' (tg_vars (tx_generator qs)) ->
  ~ blobs_possible a qs -> ~ blob_edge a qs -> TxGenerate rnd order order' a (tx_generator qs) = ErrUnsatisfiable.
Proof.
  intros hr ha ho ho' hn hedge. destruct (tg_unsat (tx_generator qs)) eqn:hu; [unfold TxGenerate; rewrite hu; reflexivity|].
  pose proof (bound_spec a ha order 0 (2 ^ 64 - 1) ltac:(lia) ltac:(lia)) as B. destruct (bound_indices a order 0 (2 ^ 64 - 1)) as [[m l]| | | |] eqn:eb; try contradiction.
  2:{ unfold TxGenerate. rewrite hu, eb. reflexivity. }
  destruct (Z.gtb_spec m l) as [h1|h1]; [unfold TxGenerate; rewrite hu, eb; cbn [gbind]; destruct (Z.gtb_spec m l); [reflexivity|lia]|].
  destruct (Z.eq_dec m (2 ^ 64 - 1)) as [h2|h2]; [unfold TxGenerate; rewrite hu, eb; cbn [gbind]; destruct (Z.eqb_spec m (2 ^ 64 - 1)); [rewrite orb_true_r; reflexivity|lia]|].
  exfalso. apply hn. destruct (tx_core rnd hr a ha qs order order' ho ho' hu m l hedge eb ltac:(lia) h2) as (b & _ & hc & hb & hf). eexists. exists b. split; [exact hc|]. split; [exact hb|exact hf].
Qed.
(** the number of hashes depends on the bound variables only *)
Lemma tx_count rnd a qs order order' count b : (forall i, proper (rnd i)) -> words a ->
  Permutation order (tg_vars (tx_generator qs)) -> Permutation order' (tg_vars (tx_generator qs)) ->
  TxGenerate rnd order order' a (tx_generator qs) = Generated (count, b) ->
  count = 0 \/ count = 1 \/ exists x, In (Present x) qs /\ a x = Some (count - 1).
Proof.
  intros hr ha ho ho' e. unfold TxGenerate in e. destruct (tg_unsat (tx_generator qs)) eqn:hu; [discriminate|].
  destruct (tx_lists qs) as [(eu & _)|(_ & _ & hi0)]; [congruence|].
  pose proof (bound_spec a ha order 0 (2 ^ 64 - 1) ltac:(lia) ltac:(lia)) as B. destruct (bound_indices a order 0 (2 ^ 64 - 1)) as [[m l]| | | |] eqn:eb; try contradiction; [|discriminate].
  cbn [gbind] in e. destruct (Z.gtb_spec m l); [discriminate|]. destruct (Z.eqb_spec m (2 ^ 64 - 1)); [discriminate|]. cbn [orb] in e. cbv zeta in e.
  destruct B as (b1 & b2 & b3 & b4 & b5 & b6).
  match type of e with gbind ?g _ = _ => destruct g as [b'| | | |] eqn:eg; try discriminate end. cbn [gbind] in e. injection e as e _.
  destruct (Z.eqb_spec l 0); cbn [negb] in e; rewrite uint64_small in e by lia; [left; lia|].
  destruct b5 as [-> |(x & i & ex)]; [right; left; lia|]. right. right. exists x. apply (Permutation_in _ ho) in i. apply hi0 in i. split; [exact i|]. replace (count - 1) with m by lia. exact ex.
Qed.
