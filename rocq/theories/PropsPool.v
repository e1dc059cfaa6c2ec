(** C25, C26: the shared pool of stack buffers. *)
From Verif Require Import Base StackPool StackPoolFacts PropFacts7 StackConc StackConcFacts.
From Coq Require Import Lia ZArith List Bool.
Import ListNotations.

(** ** C25 *)
(** [spec_run os [] = Some (rs, s, peak)]: the history [os] uses stacks legally (constructs each once, uses only live ones,
    pushes at most 1024 elements, pops only from non-empty ones); [s] are the values of the live stacks as independent lists
    and [rs] what the Pops return.  [fl] is the free list; [owned p] are the buffers of the live stacks.  A copy construction
    interrupted by other threads is the history New, ..., Assign *)
Theorem C25_exclusive_buffers : forall os rs s peak, spec_run os [] = Some (rs, s, peak) ->
  exists p fl, pool_run os pool_new = Ok (rs, p) /\ chain (p_heap p) (p_free p) fl /\ NoDup (fl ++ owned p) /\
    map fst (p_live p) = map fst s /\ NoDup (map fst s).
Proof. exact buffers_exclusive. Qed.
(** stack 1 is destroyed while 2 lives; 3 recycles its buffer; 4 is a copy of 2 and then diverges *)
Example C25_case : let os := [New 1; New 2; Push 1 10; Push 2 20; Destroy 1; New 3; Push 3 30; Copy 4 2; Push 4 40; Pop 2; Pop 4; Pop 4; Assign 2 3; Pop 2]%nat in
  spec_run os [] = Some ([None; None; None; None; None; None; None; None; None; Some 20; Some 40; Some 20; None; Some 30],
    [(4%nat, []); (3%nat, [30]); (2%nat, [])], 3%nat) /\
  match pool_run os pool_new with Ok (rs, p) => nth 13 rs None = Some 30 /\ owned p = [2%nat; 0%nat; 1%nat] | _ => False end.
Proof. vm_compute. auto. Qed.
Print Assumptions C25_exclusive_buffers.
(** any number of threads, any interleaving of their steps (one step per access to the shared free list): no undefined behaviour,
    and every thread sees the results it would see alone *)
Theorem C25_threads : forall progs rs sched, lawful progs rs ->
  exists g, run_schedule sched (start progs) = Ok g /\
    forall t, exists later, rs t = th_results (c_threads g t) ++ later /\ (finished (c_threads g t) -> later = []).
Proof. exact threads_alone. Qed.
(** at every moment no buffer is in the hands of two threads or of two stacks of one thread, and no two threads are about to
    access the same memory with one of them writing *)
Theorem C25_no_race : forall progs rs sched g, lawful progs rs -> run_schedule sched (start progs) = Ok g ->
  (forall t, NoDup (held (c_threads g t))) /\
  (forall t u i, In i (held (c_threads g t)) -> In i (held (c_threads g u)) -> t = u) /\
  (forall t u, t <> u -> ~ race g t u).
Proof. exact threads_exclusive. Qed.
(** as long as a thread has not finished some thread can make a step *)
Theorem C25_no_deadlock : forall progs rs sched g t, lawful progs rs -> run_schedule sched (start progs) = Ok g -> ~ finished (c_threads g t) ->
  exists u g', thread_step u g = Ok g' /\ c_threads g' u <> c_threads g u.
Proof. exact threads_progress. Qed.
(** two threads that alternate step by step, one of them copying and recycling; after 12 steps one of them waits for the other *)
Definition two_threads (t : nat) : list stack_op :=
  match t with
  | 0 => [New 1; Push 1 5; Pop 1; Destroy 1]
  | 1 => [Init 1 [7; 8]%Z; Pop 1; Copy 2 1; Equal 1 2; Destroy 1; Pop 2]
  | _ => []
  end%nat.
Definition their_results (t : nat) : list (option Z) :=
  match t with 0%nat => [None; None; Some 5; None] | 1%nat => [None; Some 8; None; Some 1; None; Some 7] | _ => [] end.
Definition alternating (n : nat) : list nat := concat (repeat [0; 1]%nat n).
Example C25_threads_case : lawful two_threads their_results /\
  match run_schedule (alternating 40) (start two_threads) with
  | Ok g => finished (c_threads g 0) /\ finished (c_threads g 1) /\ th_results (c_threads g 0) = their_results 0 /\
      th_results (c_threads g 1) = their_results 1 /\ length (c_heap g) = 2%nat /\ map (fun x => fst (snd x)) (th_live (c_threads g 1)) = [0%nat]
  | _ => False
  end /\
  match run_schedule (alternating 2) (start two_threads) with
  | Ok g => c_lock g = Some 0%nat /\ thread_step 1 g = Ok g /\ ~ finished (c_threads g 1)
  | _ => False
  end.
Proof.
  split; [|split].
  - intros [|[|t]]; cbn [two_threads their_results]; eexists _, _; reflexivity.
  - vm_compute. repeat split.
  - vm_compute. split; [reflexivity|]. split; [reflexivity|]. intros [X _]. discriminate.
Qed.
Print Assumptions C25_threads.
Print Assumptions C25_no_race.
Print Assumptions C25_no_deadlock.

(** ** C26 *)
(** the number of buffers ever allocated is the largest number of stacks that were live at once, and every one of them is
    either in use or in the free list *)
Theorem C26_not_leaked : forall os rs s peak, spec_run os [] = Some (rs, s, peak) ->
  exists p fl, pool_run os pool_new = Ok (rs, p) /\ chain (p_heap p) (p_free p) fl /\
    length (p_heap p) = peak /\ length (p_heap p) = (length fl + length s)%nat.
Proof. exact buffers_not_leaked. Qed.
Example C26_case : match spec_run [New 1; New 2; Destroy 1; New 3; Destroy 2; Destroy 3; New 4]%nat [] with
  | Some (_, s, peak) => peak = 2%nat /\ length s = 1%nat
  | None => False
  end.
Proof. vm_compute. auto. Qed.
Print Assumptions C26_not_leaked.
(** with threads: a buffer is in the free list exactly when no thread has it, and a thread allocates one only when every buffer
    is in the hands of some thread *)
Theorem C26_threads : forall progs rs sched g, lawful progs rs -> run_schedule sched (start progs) = Ok g ->
  (exists fl, chain (c_heap g) (c_free g) fl /\ NoDup fl /\
     forall i, (i < length (c_heap g))%nat -> In i fl <-> forall t, ~ In i (held (c_threads g t))) /\
  (forall t c, th_phase (c_threads g t) = GetAlloc c -> forall i, (i < length (c_heap g))%nat -> exists u, In i (held (c_threads g u))).
Proof. exact threads_not_leaked. Qed.
Example C26_threads_case : match run_schedule (alternating 40) (start two_threads) with Ok g => chain (c_heap g) (c_free g) [1%nat] | _ => False end /\
  match run_schedule [0; 0; 0] (start two_threads) with Ok g => th_phase (c_threads g 0) = GetAlloc (CNew 1) /\ c_heap g = [] | _ => False end%nat.
Proof. vm_compute. repeat split; eexists; repeat split. Qed.
Print Assumptions C26_threads.
