(** The stack pool: from the invariant to the statements of C25 and C26. *)
From Verif Require Import Base MemFacts StackPool StackPoolFacts.
From Coq Require Import Lia ZArith List Bool Permutation.
Import ListNotations.

Lemma buffers_exclusive os rs s peak : spec_run os [] = Some (rs, s, peak) ->
  exists p fl, pool_run os pool_new = Ok (rs, p) /\ chain (p_heap p) (p_free p) fl /\ NoDup (fl ++ owned p) /\
    map fst (p_live p) = map fst s /\ NoDup (map fst s).
Proof.
  intro H. destruct (pool_run_ok os pool_new [] [] rs s peak pool_new_inv H) as (p & fl & A & B & _).
  exists p, fl. split; [exact A|]. split; [exact (pi_chain _ _ _ B)|]. split; [exact (perm_nodup _ _ _ B)|].
  split; [exact (Forall2_fst _ _ _ (pi_live _ _ _ B)) | exact (pi_ids _ _ _ B)].
Qed.
Lemma buffers_never_undefined os rs s peak u : spec_run os [] = Some (rs, s, peak) -> pool_run os pool_new <> Undef u.
Proof. intro H. destruct (buffers_exclusive _ _ _ _ H) as (p & fl & -> & _). discriminate. Qed.
Lemma buffers_not_leaked os rs s peak : spec_run os [] = Some (rs, s, peak) ->
  exists p fl, pool_run os pool_new = Ok (rs, p) /\ chain (p_heap p) (p_free p) fl /\
    length (p_heap p) = peak /\ length (p_heap p) = (length fl + length s)%nat.
Proof.
  intro H. destruct (pool_run_ok os pool_new [] [] rs s peak pool_new_inv H) as (p & fl & A & B & C).
  exists p, fl. split; [exact A|]. split; [exact (pi_chain _ _ _ B)|]. split; [cbn in C; exact C | exact (sizes _ _ _ B)].
Qed.
