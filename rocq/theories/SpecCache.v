(** Specification vocabulary for C20 - C24: histories of cache operations and what they must return. *)
From Verif Require Import Base Lru Sha3.
From Coq Require Import ZArith List Bool.
Import ListNotations.

Section SpecCache.
Context {K V : Type}.
Variable keqb : K -> K -> bool.
Variables (dk : K) (dv : V) (cap : Z).

(** one operation on a cache; the value of [CGetOrInsert] is what the caller's make function returns *)
Inductive cache_op : Type := CGet (k : K) | CInsert (k : K) (v : V) | CGetOrInsert (k : K) (v : V) | CClear.

(** lru_cache.h:40-76, 81-92: the operation as the class performs it *)
Definition cache_do (o : cache_op) (c : lru (K:=K) (V:=V)) : res (option V * lru (K:=K) (V:=V)) :=
  match o with
  | CGet k => get keqb k c
  | CInsert k v => do! '(r, c) <- insert_or_assign keqb k v c; Ok (Some r, c)
  | CGetOrInsert k v => do! '(r, c) <- get_or_insert keqb k (fun _ => v) c; Ok (Some r, c)
  | CClear => Ok (None, clear dk dv cap)
  end.
(** the results of a sequence of operations *)
Fixpoint cache_run (os : list cache_op) (c : lru (K:=K) (V:=V)) : res (list (option V) * lru (K:=K) (V:=V)) :=
  match os with
  | [] => Ok ([], c)
  | o :: os => do! '(r, c) <- cache_do o c; do! '(rs, c) <- cache_run os c; Ok (r :: rs, c)
  end.

(** ** The abstract cache: the bindings, most recently used first *)
Definition keys (l : list (K * V)) : list K := map fst l.
(** [finds l k r]: looking [k] up in [l] gives [r] *)
Definition finds (l : list (K * V)) (k : K) (r : option V) : Prop :=
  match r with Some v => In (k, v) l | None => ~ In k (keys l) end.

(** [reads l k r l']: reading [k] gives [r]; if present, the binding moves to the front *)
Definition reads (l : list (K * V)) (k : K) (r : option V) (l' : list (K * V)) : Prop :=
  match r with
  | None => ~ In k (keys l) /\ l' = l
  | Some v => exists a b, l = a ++ (k, v) :: b /\ l' = (k, v) :: a ++ b
  end.
(** [writes l k v l']: a present binding is replaced where it is; a new one goes to the front, and if the cache is full the
    last binding is dropped *)
Definition writes (l : list (K * V)) (k : K) (v : V) (l' : list (K * V)) : Prop :=
  (exists a u b, l = a ++ (k, u) :: b /\ l' = a ++ (k, v) :: b) \/
  (~ In k (keys l) /\ zlen l < cap /\ l' = (k, v) :: l) \/
  (~ In k (keys l) /\ zlen l = cap /\ exists a last, l = a ++ [last] /\ l' = (k, v) :: a).

Definition behaves (o : cache_op) (l : list (K * V)) (r : option V) (l' : list (K * V)) : Prop :=
  match o with
  | CGet k => reads l k r l'
  | CInsert k v => r = Some v /\ writes l k v l'
  | CGetOrInsert k v =>
      (exists u, r = Some u /\ reads l k (Some u) l') \/ (r = Some v /\ ~ In k (keys l) /\ writes l k v l')
  | CClear => r = None /\ l' = []
  end.
(** a history of operations, its results, and the cache after it *)
Inductive history : list (K * V) -> list cache_op -> list (option V) -> list (K * V) -> Prop :=
| hist_none l : history l [] [] l
| hist_op l o r l1 os rs l2 : behaves o l r l1 -> history l1 os rs l2 -> history l (o :: os) (r :: rs) l2.

(** the value last written for a key, if any, since the cache was last cleared; [rs] are the results of [os] *)
Fixpoint last_written (k : K) (os : list cache_op) (rs : list (option V)) (acc : option V) : option V :=
  match os, rs with
  | CInsert k' v :: os, _ :: rs => last_written k os rs (if keqb k' k then Some v else acc)
  | CGetOrInsert k' _ :: os, r :: rs => last_written k os rs (if keqb k' k then r else acc)
  | CGet _ :: os, _ :: rs => last_written k os rs acc
  | CClear :: os, _ :: rs => last_written k os rs None
  | _, _ => acc
  end.
End SpecCache.
Arguments cache_op : clear implicits.

(** a sequence of Hash calls (sha3_cache.h:17-29) on one Sha3Cache *)
Fixpoint hash_run (keccak : list Z -> Z) (keys : list (list Z)) (c : sha3) : res (list Z * sha3) :=
  match keys with
  | [] => Ok ([], c)
  | k :: ks => do! '(h, c) <- sha3_hash keccak k c; do! '(hs, c) <- hash_run keccak ks c; Ok (h :: hs, c)
  end.
