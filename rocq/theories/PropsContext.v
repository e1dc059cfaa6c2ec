(** * The generators of contexts for the conformance tests *)
From Verif Require Import Base CtSolve SpecSolve CtGen SpecGen CtContext SpecContext CtContextFacts CtBlockFacts.
From Coq Require Import Lia ZArith List Bool Permutation.
Import ListNotations.
Open Scope Z_scope.

(** ** C91: transaction contexts *)
(** requests that can be fulfilled are fulfilled, whatever the order in which the map of variables is iterated ... *)
Theorem C91_tx_context : forall rnd a qs order order', (forall i, proper (rnd i)) -> words a ->
  Permutation order (tg_vars (tx_generator qs)) -> Permutation order' (tg_vars (tx_generator qs)) ->
  blobs_possible a qs ->
  exists count b, TxGenerate rnd order order' a (tx_generator qs) = Generated (count, b) /\ 0 <= count < 2 ^ 64 /\ extends a b /\ Forall (blob_fulfils count b) qs.
Proof. exact tx_generates. Qed.
(** ... and others are reported as unsatisfiable, with one exception *)
Theorem C91_tx_errors : forall rnd a qs order order', (forall i, proper (rnd i)) -> words a ->
  Permutation order (tg_vars (tx_generator qs)) -> Permutation order' (tg_vars (tx_generator qs)) ->
  ~ blobs_possible a qs -> ~ blob_edge a qs -> TxGenerate rnd order order' a (tx_generator qs) = ErrUnsatisfiable.
Proof. exact tx_errors. Qed.
(** the exception is one *)
Theorem C91_edge : forall a qs, blob_edge a qs -> ~ blobs_possible a qs.
Proof. exact edge_impossible. Qed.
(** there are no hashes, one, or just enough for a bound variable *)
Theorem C91_tx_count : forall rnd a qs order order' count b, (forall i, proper (rnd i)) -> words a ->
  Permutation order (tg_vars (tx_generator qs)) -> Permutation order' (tg_vars (tx_generator qs)) ->
  TxGenerate rnd order order' a (tx_generator qs) = Generated (count, b) ->
  count = 0 \/ count = 1 \/ exists x, In (Present x) qs /\ a x = Some (count - 1).
Proof. exact tx_count. Qed.

Definition cx_rnd : nat -> random := fun i => mkRandom (fun n => if n <=? 3 then 0 else 3) 12.
Lemma cx_proper : forall i, proper (cx_rnd i).
Proof. intros i. split; cbn; [|lia]. intros n h. destruct (Z.leb_spec n 3); lia. Qed.
Definition cx_bound : Assignment := fun x => if x =? 1 then Some 5 else if x =? 2 then Some 7 else None.
Lemma cx_words : words cx_bound.
Proof. intros x v. unfold cx_bound. destruct (x =? 1); [intros e; injection e as <-; unfold is_word; lia|]. destruct (x =? 2); [intros e; injection e as <-; unfold is_word; lia|discriminate]. Qed.
(** index 5 has a hash, index 7 has none; variables 3 and 4 get values *)
Definition cx_requests : list blob_request := [Present 1; Absent 2; Present 3; Absent 4; Present 1].
Example C91_case : words cx_bound /\ blobs_possible cx_bound cx_requests /\
  match TxGenerate cx_rnd [(4, false); (3, true); (2, false); (1, true)] (tg_vars (tx_generator cx_requests)) cx_bound (tx_generator cx_requests) with
  | Generated (count, b) => count = 6 /\ b 1 = Some 5 /\ b 2 = Some 7 /\ b 3 = Some 3 /\ b 4 = Some 9
  | _ => False
  end /\ Permutation [(4, false); (3, true); (2, false); (1, true)] (tg_vars (tx_generator cx_requests)).
Proof.
  split; [exact cx_words|]. split; [|split; [vm_compute; repeat split; reflexivity|exact (Permutation_sym (Permutation_rev [(1, true); (2, false); (3, true); (4, false)]))]].
  exists 6, (put (put cx_bound 3 2) 4 6). split; [lia|]. split.
  - intros x v e. unfold put. destruct (Z.eqb_spec x 4) as [->|]; [discriminate e|]. destruct (Z.eqb_spec x 3) as [->|]; [discriminate e|exact e].
  - repeat constructor; cbn; eexists; split; try reflexivity; lia.
Qed.
Example C91_conflict : TxGenerate cx_rnd [] [] cx_bound (tx_generator [Present 3; Absent 3]) = ErrUnsatisfiable /\
  TxGenerate cx_rnd [(2, true); (1, false)] [(2, true); (1, false)] cx_bound (tx_generator [Absent 1; Present 2]) = ErrUnsatisfiable.
Proof. split; reflexivity. Qed.
(** index 5 is to have a hash and none, or no hash is to have index 0 and another one any index; no error *)
Example C91_same_index_refuted : exists a qs, words a /\ ~ blobs_possible a qs /\
  exists b, TxGenerate cx_rnd (tg_vars (tx_generator qs)) (tg_vars (tx_generator qs)) a (tx_generator qs) = Generated (6, b).
Proof.
  exists (fun x => if x <=? 2 then Some 5 else None), [Present 1; Absent 2]. split; [|split].
  - intros x v. destruct (x <=? 2); [intros e; injection e as <-; unfold is_word; lia|discriminate].
  - apply C91_edge. exists 1, 2, 5. cbn. tauto.
  - eexists. vm_compute. reflexivity.
Qed.
Example C91_no_index_refuted : exists a qs, words a /\ ~ blobs_possible a qs /\
  exists b, TxGenerate cx_rnd (tg_vars (tx_generator qs)) (tg_vars (tx_generator qs)) a (tx_generator qs) = Generated (0, b) /\ b 2 = Some 12.
Proof.
  exists (fun x => if x =? 1 then Some 0 else None), [Absent 1; Present 2]. split; [|split].
  - intros x v. destruct (x =? 1); [intros e; injection e as <-; unfold is_word; lia|discriminate].
  - apply C91_edge. exists 2, 1, 0. cbn. tauto.
  - eexists. split; vm_compute; reflexivity.
Qed.
Print Assumptions C91_tx_context.
Print Assumptions C91_tx_errors.
Print Assumptions C91_edge.
Print Assumptions C91_tx_count.

(** ** C92: block contexts *)
(** whatever the random numbers and the orders in which the maps are iterated: no panic; a generated block number is of a requested
    revision, the time stamp as well; variables are as requested, with two exceptions; requests are reported as unsatisfiable if they
    are, or in the cases of [block_blind] *)
Theorem C92_block_context : forall rnd, (forall i, proper (rnd i)) -> forall rt, proper rt -> forall a, words a -> forall qs, Forall block_request_ok qs ->
  forall vo vo' ro ro', Permutation vo (bg_value (block_generator qs)) -> Permutation vo' (bg_value (block_generator qs)) ->
  Permutation ro (bg_range (block_generator qs)) -> Permutation ro' (bg_range (block_generator qs)) -> forall r, proper r ->
  match BlockGenerate r rnd rt vo ro vo' ro' a (block_generator qs) with
  | Generated (n, t, b) => 0 <= n < 2 ^ 64 /\ extends a b /\ revision_at t = revision_at n /\
      (Forall (block_fulfils n b) qs \/
       (exists x, In (OneOfLast256 x) qs /\ In (Offset x 0) qs) \/
       (1 <= n <= 255 /\ exists x, In (NoneOfLast256 x) qs /\ a x = None))
  | ErrUnsatisfiable => (forall n, ~ block_possible a qs n) \/
      (exists x, In (NoneOfLast256 x) qs /\ (a x <> None \/ In (Offset x 0) qs)) \/
      (exists x o, In (Offset x o) qs /\ 0 < o /\ a x = None)
  | _ => False
  end.
Proof. exact block_spec. Qed.
(** each possible block number can be generated, unless it is bound, or requested to be, to a variable for a block that is none of the last *)
Theorem C92_block_complete : forall rnd, (forall i, proper (rnd i)) -> forall rt a, words a -> forall qs, Forall block_request_ok qs ->
  forall vo vo' ro ro', Permutation vo (bg_value (block_generator qs)) -> Permutation vo' (bg_value (block_generator qs)) ->
  Permutation ro (bg_range (block_generator qs)) -> Permutation ro' (bg_range (block_generator qs)) ->
  forall n, block_possible a qs n -> ~ (exists x, In (NoneOfLast256 x) qs /\ (a x = Some n \/ In (Offset x 0) qs)) ->
  exists r t b, proper r /\ BlockGenerate r rnd rt vo ro vo' ro' a (block_generator qs) = Generated (n, t, b).
Proof. exact block_reaches. Qed.

Notation "'run_block' r a qs" := (BlockGenerate r cx_rnd r (bg_value (block_generator qs)) (bg_range (block_generator qs)) (bg_value (block_generator qs)) (bg_range (block_generator qs)) a (block_generator qs))
  (at level 0, r at level 0, a at level 0, qs at level 0).
Definition fixed (k : Z) : random := mkRandom (fun n => if k <? n then k else 0) 12.
Lemma fixed_proper k : 0 <= k -> proper (fixed k).
Proof. intros h. split; cbn; [|lia]. intros n hn. destruct (Z.ltb_spec k n); lia. Qed.
(** Berlin or London; variable 1 is bound to 1500 and to be one of the last blocks, 2 none of them, 3 is the block 5 before the generated one *)
Definition bk_requests : list block_request := [Revisions 1 2; OneOfLast256 1; NoneOfLast256 2; Offset 3 5; Offset 4 (-7)].
Definition bk_bound : Assignment := fun x => if x =? 1 then Some 1500 else None.
Lemma bk_words k : is_word k -> words (fun x => if x =? 1 then Some k else None).
Proof. intros h x v. destruct (x =? 1); [intros e; injection e as <-; exact h|discriminate]. Qed.
Example C92_case : words bk_bound /\ Forall block_request_ok bk_requests /\ block_possible bk_bound bk_requests 1600 /\
  match run_block (fixed 99) bk_bound bk_requests with
  | Generated (n, t, b) => n = 1600 /\ t = 1099 /\ b 1 = Some 1500 /\ b 2 = Some 3 /\ b 3 = Some 1595 /\ b 4 = Some 1607
  | _ => False
  end.
Proof.
  split; [apply bk_words; unfold is_word; lia|]. split; [repeat constructor; cbn; lia|]. split; [|vm_compute; repeat split; reflexivity].
  split; [lia|]. exists (fun x => if x =? 1 then Some 1500 else if x =? 2 then Some 1600 else if x =? 3 then Some 1595 else if x =? 4 then Some 1607 else None). split.
  - intros x v e. unfold bk_bound in e. destruct (x =? 1); [exact e|discriminate e].
  - repeat constructor; cbn; unfold recent, is_word; try (eexists; split; [reflexivity|]); try lia; reflexivity.
Qed.
Example C92_unsatisfiable : run_block (fixed 99) bk_bound [Revisions 3 3; OneOfLast256 1] = ErrUnsatisfiable /\ forall n, ~ block_possible bk_bound [Revisions 3 3; OneOfLast256 1] n.
Proof.
  split; [vm_compute; reflexivity|]. intros n (hn & b & hb & hf). rewrite !Forall_cons_iff in hf. destruct hf as (h1 & (k & e & h2) & _). cbn in h1. pose proof (hb 1 1500 eq_refl) as e1. assert (k = 1500) by congruence.
  unfold recent in h2. assert (e2 : n / 1000 = 1) by (symmetry; apply (Z.div_unique n 1000 1 (n - 1000)); lia). unfold revision_at in h1. destruct (n <? 6000); lia.
Qed.
(** the block itself is none of the last 256, but passes for one *)
Example C92_itself_refuted : let qs := [OneOfLast256 1; Offset 1 0] in (forall n, ~ block_possible (fun _ => None) qs n) /\
  exists n t b, run_block (fixed 5) (fun _ => None) qs = Generated (n, t, b).
Proof.
  split; [|eexists; eexists; eexists; vm_compute; reflexivity].
  intros n (hn & b & hb & hf). rewrite !Forall_cons_iff in hf. destruct hf as ((k & e & h) & (e' & _) & _). assert (k = n - 0) by congruence. unfold recent in h. lia.
Qed.
(** ... so that possible requests are reported as unsatisfiable: here with block 1500 generated for variable 1 bound to 1500 *)
Example C92_itself_error_refuted : let qs := [NoneOfLast256 1; Revisions 1 1] in block_possible bk_bound qs 1500 /\ run_block (fixed 500) bk_bound qs = ErrUnsatisfiable.
Proof.
  split; [|vm_compute; reflexivity]. split; [lia|]. exists bk_bound. split; [intros x v e; exact e|].
  constructor; [exists 1500; split; [reflexivity|split; [unfold is_word; lia|unfold recent; lia]]|]. constructor; [cbn; vm_compute; split; discriminate|constructor].
Qed.
(** in the first 255 blocks the excluded interval wraps around: block 100, and block 50 is to be none of the last 256 *)
Example C92_first_blocks_refuted : let qs := [Revisions 0 0; NoneOfLast256 1] in
  match BlockGenerate (fixed 100) (fun _ => mkRandom (fun _ => 0) 50) (fixed 0) [] [(1, false)] [] [(1, false)] (fun _ => None) (block_generator qs) with
  | Generated (n, t, b) => n = 100 /\ b 1 = Some 50 /\ recent 100 50
  | _ => False
  end.
Proof. vm_compute. repeat split; discriminate. Qed.
(** the block 5 before block 3 *)
Example C92_offset_refuted : let qs := [Offset 1 5; Revisions 0 0] in block_possible (fun _ => None) qs 100 /\ run_block (fixed 3) (fun _ => None) qs = ErrUnsatisfiable.
Proof.
  split; [|vm_compute; reflexivity]. split; [lia|]. exists (fun x => if x =? 1 then Some 95 else None). split; [intros x v e; discriminate e|].
  constructor; [split; [reflexivity|lia]|]. constructor; [cbn; vm_compute; split; discriminate|constructor].
Qed.
Print Assumptions C92_block_context.
Print Assumptions C92_block_complete.
