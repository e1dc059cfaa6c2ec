(** Threads sharing one LruCache.  Every member function of common/lru_cache.h that touches the
    cache does so under [std::scoped_lock lock(mutex_)] (lines 38, 50, 82); GetOrInsert (71-77) calls
    Get, then make_value outside the lock, then InsertOrAssign.  A thread runs a list of operations;
    any number of threads (indexed by nat) interleave arbitrarily. *)
From Verif Require Import Base Lru.

Section Conc.
Context {K V : Type}.
Variable keqb : K -> K -> bool.
Variables (dk : K) (dv : V).
Variable cap : Z.
(** the values make_value may return for a key *)
Variable makes : K -> V -> Prop.

Inductive op : Type := OGet (k : K) | OPut (k : K) (v : V) | OGoi (k : K) | OClear.
(** the critical sections *)
Inductive section : Type := SGet (k : K) | SPut (k : K) (v : V) | SClear.
(** where a thread is: before an operation, waiting for the mutex, holding it before resp. after the
    body of the section, in make_value, about to return *)
Inductive phase : Type :=
| Idle
| Waiting (o : op) (s : section)
| Inside (o : op) (s : section)
| Leaving (o : op) (s : section) (r : option V)
| Making (k : K)
| Returning (o : op) (r : option V).
Record thread : Type := mkThread { t_phase : phase; t_todo : list op }.
Definition threads := nat -> thread.
Definition upd (ts : threads) (t : nat) (x : thread) : threads := fun u => if Nat.eqb u t then x else ts u.

(** the first section of an operation *)
Definition first_section (o : op) : section :=
  match o with OGet k => SGet k | OPut k v => SPut k v | OGoi k => SGet k | OClear => SClear end.
(** 72-76: what follows a section *)
Definition after (o : op) (s : section) (r : option V) : phase :=
  match o, s, r with
  | OGoi k, SGet _, None => Making k
  | _, _, _ => Returning o r
  end.

(** events visible to the callers *)
Inductive event : Type := Call (t : nat) (o : op) | Return (t : nat) (o : op) (r : option V).

(** *** The program: sections run on the pointer structure, under the mutex *)
Record cstate : Type := mkC { g_lock : option nat; g_cache : lru (K:=K) (V:=V); g_threads : threads }.

Definition body (s : section) (c : lru) : res (option V * lru) :=
  match s with
  | SGet k => get keqb k c
  | SPut k v => do! '(r, c) <- insert_or_assign keqb k v c; Ok (Some r, c)
  | SClear => Ok (None, clear dk dv cap)
  end.

Inductive cstep : cstate -> option event -> cstate -> Prop :=
| c_call l c ts t o rest : ts t = mkThread Idle (o :: rest) ->
    cstep (mkC l c ts) (Some (Call t o)) (mkC l c (upd ts t (mkThread (Waiting o (first_section o)) rest)))
| c_lock c ts t o s rest : ts t = mkThread (Waiting o s) rest ->
    cstep (mkC None c ts) None (mkC (Some t) c (upd ts t (mkThread (Inside o s) rest)))
| c_body l c ts t o s rest r c' : ts t = mkThread (Inside o s) rest -> body s c = Ok (r, c') ->
    cstep (mkC l c ts) None (mkC l c' (upd ts t (mkThread (Leaving o s r) rest)))
| c_unlock c ts t o s r rest : ts t = mkThread (Leaving o s r) rest ->
    cstep (mkC (Some t) c ts) None (mkC None c (upd ts t (mkThread (after o s r) rest)))
| c_make l c ts t k v rest : ts t = mkThread (Making k) rest -> makes k v ->
    cstep (mkC l c ts) None (mkC l c (upd ts t (mkThread (Waiting (OGoi k) (SPut k v)) rest)))
| c_return l c ts t o r rest : ts t = mkThread (Returning o r) rest ->
    cstep (mkC l c ts) (Some (Return t o r)) (mkC l c (upd ts t (mkThread Idle rest))).

(** *** The specification: sections are atomic operations on the abstract cache *)
Record astate : Type := mkA { a_cache : list (K * V); a_threads : threads }.
Definition a_body (s : section) (l : list (K * V)) : option V * list (K * V) :=
  match s with
  | SGet k => a_get keqb k l
  | SPut k v => (Some v, a_put keqb cap k v l)
  | SClear => (None, [])
  end.
Inductive astep : astate -> option event -> astate -> Prop :=
| as_call l ts t o rest : ts t = mkThread Idle (o :: rest) ->
    astep (mkA l ts) (Some (Call t o)) (mkA l (upd ts t (mkThread (Waiting o (first_section o)) rest)))
| as_atomic l ts t o s rest : ts t = mkThread (Waiting o s) rest ->
    astep (mkA l ts) None (mkA (snd (a_body s l)) (upd ts t (mkThread (after o s (fst (a_body s l))) rest)))
| as_make l ts t k v rest : ts t = mkThread (Making k) rest -> makes k v ->
    astep (mkA l ts) None (mkA l (upd ts t (mkThread (Waiting (OGoi k) (SPut k v)) rest)))
| as_return l ts t o r rest : ts t = mkThread (Returning o r) rest ->
    astep (mkA l ts) (Some (Return t o r)) (mkA l (upd ts t (mkThread Idle rest))).

(** executions and the events they show *)
Inductive cexec : cstate -> list event -> cstate -> Prop :=
| cx_refl x : cexec x [] x
| cx_tau x y z es : cexec x es y -> cstep y None z -> cexec x es z
| cx_event x y z es e : cexec x es y -> cstep y (Some e) z -> cexec x (es ++ [e]) z.
Inductive aexec : astate -> list event -> astate -> Prop :=
| ax_refl x : aexec x [] x
| ax_tau x y z es : aexec x es y -> astep y None z -> aexec x es z
| ax_event x y z es e : aexec x es y -> astep y (Some e) z -> aexec x (es ++ [e]) z.

(** all threads before their first operation, the cache freshly constructed (33) *)
Definition start (ops : nat -> list op) : threads := fun t => mkThread Idle (ops t).
Definition c_init (ops : nat -> list op) : cstate := mkC None (clear dk dv cap) (start ops).
Definition a_init (ops : nat -> list op) : astate := mkA [] (start ops).
End Conc.
