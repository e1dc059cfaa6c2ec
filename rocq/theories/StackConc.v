(** Threads constructing, using and destroying stacks, vm/evmzero/stack.{h,cc}, with the accesses to the shared free list as single steps.
    Stack::Data::Get and Release hold free_list_mutex from their first to their last statement (std::lock_guard, stack.cc:69, 79).
    Any number of threads (indexed by nat) interleave arbitrarily; every thread has its own stacks (the interpreter's stacks are local
    variables of InterpreterArgs' users). *)
From Verif Require Import Base StackPool.

(** the constructors, which begin with Data::Get: stack.cc:18, 20-25, 27-30 *)
Inductive ctor : Set := CNew (id : nat) | CCopy (id other : nat) | CInit (id : nat) (els : list Z).
Definition op_of (c : ctor) : stack_op := match c with CNew id => New id | CCopy id other => Copy id other | CInit id els => Init id els end.

(** where a thread is.  Between Lock and the end of Unlock it holds the mutex. *)
Inductive phase : Set :=
| Ready
| GetLock (c : ctor)                                 (* stack.cc:69 *)
| GetRead (c : ctor)                                 (* 70, 73: read free_list *)
| GetAlloc (c : ctor)                                (* 71: it was nullptr; new Data() *)
| GetNext (c : ctor) (i : nat)                       (* 74: read res->next_ *)
| GetSet (c : ctor) (i : nat) (n : option nat)       (* 74: write free_list *)
| GetUnlock (c : ctor) (i : nat)                     (* end of Get *)
| Build (c : ctor) (i : nat)                         (* 18 top_, 21-24, 28-29: the rest of the constructor *)
| RelLock (i : nat)                                  (* 34, 79 *)
| RelRead (i : nat)                                  (* 80: read free_list *)
| RelNext (i : nat) (f : option nat)                 (* 80: write next_ *)
| RelSet (i : nat)                                   (* 81: write free_list *)
| RelUnlock.                                         (* end of Release *)

Record thread : Type := mkThread {
  th_phase : phase; th_todo : list stack_op;
  th_live : list (nat * (nat * Z));          (* its live stacks *)
  th_results : list (option Z) }.            (* results of the operations it has completed *)
Record state : Type := mkState { c_lock : option nat; c_heap : list data; c_free : option nat; c_threads : nat -> thread }.
Definition set_thread (ts : nat -> thread) (t : nat) (x : thread) : nat -> thread := fun u => if Nat.eqb u t then x else ts u.

(** the next step of thread [t]; a thread that waits for the mutex, or has finished, does nothing *)
Definition thread_step (t : nat) (g : state) : res state :=
  let th := c_threads g t in
  let go ph := mkThread ph (th_todo th) (th_live th) (th_results th) in
  let to l h f x := Ok (mkState l h f (set_thread (c_threads g) t x)) in
  let same x := to (c_lock g) (c_heap g) (c_free g) x in
  match th_phase th with
  | Ready =>
    match th_todo th with
    | [] => Ok g
    | o :: rest =>
      match o with
      | New id => same (mkThread (GetLock (CNew id)) rest (th_live th) (th_results th))
      | Copy id other => same (mkThread (GetLock (CCopy id other)) rest (th_live th) (th_results th))
      | Init id els => same (mkThread (GetLock (CInit id els)) rest (th_live th) (th_results th))
      | Destroy id =>
        do! '(i, _) <- stack_of (mkPool (c_heap g) (c_free g) (th_live th)) id;
        same (mkThread (RelLock i) rest (remove_id id (th_live th)) (th_results th))
      | _ =>
        do! '(r, p) <- pool_step o (mkPool (c_heap g) (c_free g) (th_live th));
        to (c_lock g) (p_heap p) (c_free g) (mkThread Ready rest (p_live p) (th_results th ++ [r]))
      end
    end
  | GetLock c => match c_lock g with None => to (Some t) (c_heap g) (c_free g) (go (GetRead c)) | Some _ => Ok g end
  | GetRead c => same (go match c_free g with None => GetAlloc c | Some i => GetNext c i end)
  | GetAlloc c =>
    to (c_lock g) (c_heap g ++ [mkData None (repeat None (Z.to_nat stack_size))]) (c_free g) (go (GetUnlock c (length (c_heap g))))
  | GetNext c i => do! d <- deref (mkPool (c_heap g) (c_free g) []) i; same (go (GetSet c i (d_next d)))
  | GetSet c i n => to (c_lock g) (c_heap g) n (go (GetUnlock c i))
  | GetUnlock c i => to None (c_heap g) (c_free g) (go (Build c i))
  | Build c i =>
    let new id := mkPool (c_heap g) (c_free g) ((id, (i, stack_size)) :: th_live th) in
    do! p <- match c with CNew id => Ok (new id) | CCopy id other => stack_assign id other (new id) | CInit id els => stack_pushes id els (new id) end;
    to (c_lock g) (p_heap p) (c_free g) (mkThread Ready (th_todo th) (p_live p) (th_results th ++ [None]))
  | RelLock i => match c_lock g with None => to (Some t) (c_heap g) (c_free g) (go (RelRead i)) | Some _ => Ok g end
  | RelRead i => same (go (RelNext i (c_free g)))
  | RelNext i f =>
    do! d <- deref (mkPool (c_heap g) (c_free g) []) i;
    to (c_lock g) (list_upd (c_heap g) i (mkData f (d_buf d))) (c_free g) (go (RelSet i))
  | RelSet i => to (c_lock g) (c_heap g) (Some i) (go RelUnlock)
  | RelUnlock => to None (c_heap g) (c_free g) (mkThread Ready (th_todo th) (th_live th) (th_results th ++ [None]))
  end.

(** a schedule says which thread makes the next step *)
Fixpoint run_schedule (sched : list nat) (g : state) : res state :=
  match sched with [] => Ok g | t :: sched' => do! g <- thread_step t g; run_schedule sched' g end.
Definition start (progs : nat -> list stack_op) : state := mkState None [] None (fun t => mkThread Ready (progs t) [] []).

(** ** What a data race is: two threads whose next steps access the same object, at least one of them writing *)
Inductive location : Set := LFree | LNext (i : nat) | LBuffer (i : nat).
Definition buffers (th : thread) (id : nat) : list nat := match lookup id (th_live th) with Some (i, _) => [i] | None => [] end.
(** the memory shared through the pool that the next step of a thread reads (false) or writes (true); allocating a Data makes an object
    that no other thread knows *)
Definition accesses (th : thread) : list (location * bool) :=
  match th_phase th with
  | Ready =>
    match th_todo th with
    | Push id _ :: _ | Put id _ _ :: _ => map (fun i => (LBuffer i, true)) (buffers th id)
    | Pop id :: _ | At id _ :: _ => map (fun i => (LBuffer i, false)) (buffers th id)
    | Equal id other :: _ => map (fun i => (LBuffer i, false)) (buffers th id ++ buffers th other)
    | Assign id other :: _ =>
      map (fun i => (LBuffer i, true)) (buffers th id) ++ map (fun i => (LNext i, true)) (buffers th id) ++
      map (fun i => (LBuffer i, false)) (buffers th other) ++ map (fun i => (LNext i, false)) (buffers th other)
    | _ => []
    end
  | GetRead _ | RelRead _ => [(LFree, false)]
  | GetNext _ i => [(LNext i, false)]
  | GetSet _ _ _ | RelSet _ => [(LFree, true)]
  | RelNext i _ => [(LNext i, true)]
  | Build (CCopy id other) i => (LBuffer i, true) :: (LNext i, true) :: map (fun i => (LBuffer i, false)) (buffers th other) ++ map (fun i => (LNext i, false)) (buffers th other)
  | Build (CInit _ _) i => [(LBuffer i, true)]
  | _ => []
  end.
Definition race (g : state) (t u : nat) : Prop :=
  exists loc w1 w2, In (loc, w1) (accesses (c_threads g t)) /\ In (loc, w2) (accesses (c_threads g u)) /\ (w1 = true \/ w2 = true).
(** the buffers a thread has: those of its stacks, and the one it is about to use or give back *)
Definition in_flight (th : thread) : list nat :=
  match th_phase th with
  | GetUnlock _ i | Build _ i | RelLock i | RelRead i | RelNext i _ | RelSet i => [i]
  | _ => []
  end.
Definition held (th : thread) : list nat := in_flight th ++ map (fun x => fst (snd x)) (th_live th).

(** ** What the properties say *)
Definition finished (th : thread) : Prop := th_phase th = Ready /\ th_todo th = [].
(** every thread by itself uses its stacks legally; [rs t] are the results it must see *)
Definition lawful (progs : nat -> list stack_op) (rs : nat -> list (option Z)) : Prop :=
  forall t, exists s peak, spec_run (progs t) [] = Some (rs t, s, peak).
