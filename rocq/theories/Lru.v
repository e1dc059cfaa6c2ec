(** Models common/lru_cache.h: LruCache<Key, Value, Capacity>.  Entries live in a vector;
    pointers to entries are [Some index], nullptr is [None].  The hash map index_ is modelled as an
    association list (only find, insert, erase, size and clear are used), std::hash by nothing and
    KeyEqual by a boolean equality.  Line numbers refer to lru_cache.h. *)
From Verif Require Import Base.

Section Lru.
Context {K V : Type}.
Variable keqb : K -> K -> bool.     (* KeyEqual, 30 *)
Variables (dk : K) (dv : V).        (* value-initialised Key and Value, 84 *)
Variable cap : Z.                   (* Capacity, 29 *)

(** 96-101 struct Entry *)
Record entry : Type := mkEntry { n_key : K; n_val : V; n_pred : option Z; n_succ : option Z }.

(** 143-148: entries_, index_, head_, tail_ (mutex_: see LruConc.v) *)
Record lru : Type := mkLru {
  c_ents : list entry; c_index : list (K * Z); c_head : option Z; c_tail : option Z;
}.

(** absl::flat_hash_map::find / erase / size *)
Fixpoint ix_find (k : K) (m : list (K * Z)) : option Z :=
  match m with
  | [] => None
  | (k', i) :: m' => if keqb k k' then Some i else ix_find k m'
  end.
Definition ix_erase (k : K) (m : list (K * Z)) : list (K * Z) :=
  filter (fun p => negb (keqb k (fst p))) m.

(** dereferencing an Entry* *)
Definition ent (c : lru) (p : option Z) : res (Z * entry) :=
  match p with
  | None => Undef UB_lru_null
  | Some i => match znth (c_ents c) i with Some e => Ok (i, e) | None => Undef UB_lru_oob end
  end.
Definition put (c : lru) (i : Z) (e : entry) : lru :=
  mkLru (list_upd (c_ents c) (Z.to_nat i) e) (c_index c) (c_head c) (c_tail c).
(** p->pred = q, p->succ = q *)
Definition set_pred (p q : option Z) (c : lru) : res lru :=
  do! '(i, e) <- ent c p; Ok (put c i (mkEntry (n_key e) (n_val e) q (n_succ e))).
Definition set_succ (p q : option Z) (c : lru) : res lru :=
  do! '(i, e) <- ent c p; Ok (put c i (mkEntry (n_key e) (n_val e) (n_pred e) q)).
Definition set_head (p : option Z) (c : lru) : lru := mkLru (c_ents c) (c_index c) p (c_tail c).
Definition set_tail (p : option Z) (c : lru) : lru := mkLru (c_ents c) (c_index c) (c_head c) p.
Definition set_index (m : list (K * Z)) (c : lru) : lru := mkLru (c_ents c) m (c_head c) (c_tail c).

Definition ptr_eqb (p q : option Z) : bool :=
  match p, q with
  | None, None => true | Some i, Some j => i =? j | _, _ => false
  end.

(** 81-93 Clear.  Line 87 compares i < size instead of i + 1 < size, so the successor of the
    last entry points one past the end; forming &entries_[size] is not counted as undefined here. *)
Definition clear_entry (i : nat) : entry :=
  mkEntry dk dv (if Nat.ltb 0 i then Some (Z.of_nat i - 1) else None)
    (if Z.of_nat i <? cap then Some (Z.of_nat i + 1) else None).
Definition clear : lru :=
  mkLru (map clear_entry (seq 0 (Z.to_nat cap))) [] (Some 0) (Some (cap - 1)).

(** 104-123 Touch *)
Definition touch (p : option Z) (c : lru) : res lru :=
  if ptr_eqb p (c_head c) then Ok c
  else
    do! '(_, e) <- ent c p;
    do! c <- set_succ (n_pred e) (n_succ e) c;
    do! '(_, e) <- ent c p;
    do! c <- match n_succ e with
             | Some _ => set_pred (n_succ e) (n_pred e) c
             | None => Ok (set_tail (n_pred e) c)
             end;
    do! c <- set_pred p None c;
    do! c <- set_succ p (c_head c) c;
    do! c <- set_pred (c_head c) p c;
    Ok (set_head p c).

(** 125-141 GetNewHead *)
Definition get_new_head (c : lru) : res (option Z * lru) :=
  do! '(_, t) <- ent c (c_tail c);
  let new_tail := n_pred t in
  do! c <- set_succ new_tail None c;
  do! '(_, t) <- ent c (c_tail c);
  let c := if zlen (c_ents c) <=? zlen (c_index c) then set_index (ix_erase (n_key t) (c_index c)) c else c in
  let result := c_tail c in
  let c := set_tail new_tail c in
  do! c <- set_pred result None c;
  do! c <- set_succ result (c_head c) c;
  do! c <- set_pred (c_head c) result c;
  Ok (result, set_head result c).

(** 37-45 Get *)
Definition get (k : K) (c : lru) : res (option V * lru) :=
  match ix_find k (c_index c) with
  | Some i =>
    do! c <- touch (Some i) c;
    do! '(_, e) <- ent c (Some i);
    Ok (Some (n_val e), c)
  | None => Ok (None, c)
  end.

(** 49-66 InsertOrAssign *)
Definition insert_or_assign (k : K) (v : V) (c : lru) : res (V * lru) :=
  match ix_find k (c_index c) with
  | Some i =>
    do! '(j, e) <- ent c (Some i);
    Ok (v, put c j (mkEntry (n_key e) v (n_pred e) (n_succ e)))
  | None =>
    do! '(p, c) <- get_new_head c;
    do! '(i, e) <- ent c p;
    let c := put c i (mkEntry k v (n_pred e) (n_succ e)) in
    Ok (v, set_index ((k, i) :: c_index c) c)
  end.

(** 71-78 GetOrInsert, run without interference (interleavings: LruConc.v) *)
Definition get_or_insert (k : K) (make : unit -> V) (c : lru) : res (V * lru) :=
  do! '(r, c) <- get k c;
  match r with
  | Some v => Ok (v, c)
  | None => insert_or_assign k (make tt) c
  end.

(** ** Specification: at most [cap] bindings, most recently used first *)
Fixpoint a_find (k : K) (l : list (K * V)) : option V :=
  match l with
  | [] => None
  | (k', v) :: l' => if keqb k k' then Some v else a_find k l'
  end.
Definition a_remove (k : K) (l : list (K * V)) : list (K * V) := filter (fun p => negb (keqb k (fst p))) l.
(** reading a present key makes it the most recent one *)
Definition a_get (k : K) (l : list (K * V)) : option V * list (K * V) :=
  match a_find k l with
  | Some v => (Some v, (k, v) :: a_remove k l)
  | None => (None, l)
  end.
(** writing a present key replaces its value; a new key becomes the most recent one and the least
    recently used binding beyond the capacity is dropped *)
Definition a_put (k : K) (v : V) (l : list (K * V)) : list (K * V) :=
  match a_find k l with
  | Some _ => map (fun p => if keqb k (fst p) then (fst p, v) else p) l
  | None => firstn (Z.to_nat cap) ((k, v) :: l)
  end.
End Lru.

Arguments mkEntry {K V}. Arguments n_key {K V}. Arguments n_val {K V}. Arguments n_pred {K V}.
Arguments n_succ {K V}. Arguments mkLru {K V}. Arguments c_ents {K V}. Arguments c_index {K V}.
Arguments c_head {K V}. Arguments c_tail {K V}.
