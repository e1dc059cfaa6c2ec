(** An LruCache used as a memo table: GetOrInsert returns the function's value, whatever is cached. *)
From Verif Require Import Base Lru LruFacts LruConcFacts Sha3.
From Coq Require Import Lia ZArith List Bool.

Section Memo.
Context {K V : Type}.
Variable keqb : K -> K -> bool.
Hypothesis keqb_eq : forall a b, keqb a b = true <-> a = b.
Variable cap : Z.
Hypothesis cap2 : 2 <= cap.
(** [good k v]: [v] may be stored under the key [k] *)
Variable good : K -> V -> Prop.

Definition memo_ok (c : lru) : Prop := exists l, rep cap c l /\ forall k v, In (k, v) l -> good k v.

Lemma memo_clear dk dv : memo_ok (clear dk dv cap).
Proof. exists []. split; [apply clear_rep; assumption|cbn; tauto]. Qed.

Theorem memo_get_or_insert c k v : memo_ok c -> good k v ->
  exists r c', get_or_insert keqb k (fun _ => v) c = Ok (r, c') /\ good k r /\ memo_ok c'.
Proof.
  intros (l & R & G) Hv. unfold get_or_insert.
  destruct (get_rep keqb keqb_eq cap c l k R) as (c1 & E1 & R1). rewrite E1. cbn [rbind].
  unfold a_get in *. destruct (a_find keqb k l) as [r|] eqn:Ef; cbn [fst snd] in *.
  - exists r, c1. split; [reflexivity|]. split; [apply G, (a_find_in keqb keqb_eq); exact Ef|].
    eexists. split; [exact R1|]. intros k1 v1 [[= <- <-]|HI]; [apply G, (a_find_in keqb keqb_eq); exact Ef|].
    unfold a_remove in HI. apply filter_In in HI. apply G. tauto.
  - destruct (insert_rep keqb keqb_eq cap cap2 c1 l k v R1) as (c2 & E2 & R2). rewrite E2.
    exists v, c2. split; [reflexivity|]. split; [exact Hv|]. eexists. split; [exact R2|].
    unfold a_put. rewrite Ef. intros k1 v1 HI.
    assert (HI' : In (k1, v1) ((k, v) :: l)). { rewrite <- (firstn_skipn (Z.to_nat cap)). apply in_or_app. left. exact HI. }
    destruct HI' as [[= <- <-]|HI']; [exact Hv|apply G; exact HI'].
Qed.
End Memo.

Lemma bytes_eqb_eq a b : bytes_eqb a b = true <-> a = b.
Proof.
  revert b. induction a as [|x a IH]; intros [|y b]; cbn; try (split; congruence).
  rewrite andb_true_iff, Z.eqb_eq, IH. split; [intros [-> ->]; reflexivity|intros [= -> ->]; auto].
Qed.

Definition sha3_ok (keccak : list Z -> Z) (c : sha3) : Prop :=
  memo_ok kSha3Capacity (fun k v => v = keccak k) (h_32 c) /\ memo_ok kSha3Capacity (fun k v => v = keccak k) (h_64 c).

Lemma sha3_new_ok keccak : sha3_ok keccak sha3_new.
Proof. split; apply memo_clear; unfold kSha3Capacity; lia. Qed.

Theorem sha3_hash_ok keccak c key : sha3_ok keccak c ->
  exists c', sha3_hash keccak key c = Ok (keccak key, c') /\ sha3_ok keccak c'.
Proof.
  intros [H32 H64]. unfold sha3_hash.
  destruct (zlen key =? 32).
  - destruct (memo_get_or_insert bytes_eqb bytes_eqb_eq kSha3Capacity ltac:(unfold kSha3Capacity; lia) _ _ key (keccak key) H32 eq_refl) as (r & c' & E & -> & M).
    rewrite E. cbn. eexists. split; [reflexivity|]. split; assumption.
  - destruct (zlen key =? 64).
    + destruct (memo_get_or_insert bytes_eqb bytes_eqb_eq kSha3Capacity ltac:(unfold kSha3Capacity; lia) _ _ key (keccak key) H64 eq_refl) as (r & c' & E & -> & M).
      rewrite E. cbn. eexists. split; [reflexivity|]. split; assumption.
    + exists c. split; [reflexivity|]. split; assumption.
Qed.
