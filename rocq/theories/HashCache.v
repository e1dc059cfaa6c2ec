(** Models go/interpreter/lfvm/hash_cache.go: LFVM's cache of hashes.  Line numbers refer to that file.  Entries live in an
    array; pointers to entries are [Some index], nil is [None]; the Go map index is an association list (lookup, insertion
    of an absent key, deletion and length).  Records and pointer primitives are those of Lru.v (the entry has the same four
    fields, 156-163); dereferencing nil, in Go a panic, is [Undef]. *)
From Verif Require Import Base Lru Keccak.
From Coq Require Import ZArith List Bool.
Import ListNotations.

Section HashCache.
Context {K V : Type}.
Variable keqb : K -> K -> bool.      (* == on K *)
Variables (dk : K) (dv : V).         (* the zero values *)
Variable hash : K -> res V.          (* 58 *)

(** 57-64: entries, index, head, tail are the fields of [h_list]; nextFree.  The lock: see below. *)
Record hcache : Type := mkHC { h_list : lru (K:=K) (V:=V); h_next : Z }.

(** 140-153 getFree *)
Definition getFree (c : hcache) : res (option Z * hcache) :=
  let l := h_list c in
  if h_next c <? zlen (c_ents l) then Ok (Some (h_next c), mkHC l (h_next c + 1))
  else
    let r := c_tail l in
    do! '(_, t) <- ent l (c_tail l);
    let l := set_tail (n_pred t) l in
    do! l <- set_succ (c_tail l) None l;
    do! '(_, e) <- ent l r;
    Ok (r, mkHC (set_index (ix_erase keqb (n_key e) (c_index l)) l) (h_next c)).

(** 69-91 newHashCache *)
Definition newHashCache (capacity : Z) : res hcache :=
  let capacity := if capacity <? 2 then 2 else capacity in
  let l := mkLru (repeat (mkEntry dk dv None None) (Z.to_nat capacity)) [] None None in
  do! '(p, c) <- getFree (mkHC l 0);
  let l := set_tail p (set_head p (h_list c)) in
  do! v <- hash dk;
  do! '(i, e) <- ent l p;
  let l := put l i (mkEntry (n_key e) v (n_pred e) (n_succ e)) in
  Ok (mkHC (set_index ((dk, i) :: c_index l) l) (h_next c)).

(** 94-111, 116, the first critical section of getHash: look the key up and move its entry to the front (97-110 are the statements
    of [touch]); the pointer to the entry, if found *)
Definition section_look (k : K) (c : hcache) : res (option Z * hcache) :=
  match ix_find keqb k (c_index (h_list c)) with
  | Some i => do! l <- touch (Some i) (h_list c); Ok (Some i, mkHC l (h_next c))
  | None => Ok (None, c)
  end.
(** 112: entry.hash is read after the lock was released *)
Definition read_entry (p : option Z) (c : hcache) : res V := do! '(_, e) <- ent (h_list c) p; Ok (n_val e).
(** 118-136, the second critical section: insert unless the key was added in between *)
Definition section_insert (k : K) (v : V) (c : hcache) : res hcache :=
  match ix_find keqb k (c_index (h_list c)) with
  | Some _ => Ok c
  | None =>
      do! '(p, c) <- getFree c;
      let l := h_list c in
      do! '(i, e) <- ent l p;
      let l := put l i (mkEntry k v None (c_head l)) in
      do! l <- set_pred (c_head l) p l;
      let l := set_head p l in
      Ok (mkHC (set_index ((k, i) :: c_index l) l) (h_next c))
  end.

(** 93-138 getHash, not interrupted *)
Definition getHash (k : K) (c : hcache) : res (V * hcache) :=
  do! '(p, c) <- section_look k c;
  match p with
  | Some _ => do! v <- read_entry p c; Ok (v, c)
  | None => do! v <- hash k; do! c <- section_insert k v c; Ok (v, c)
  end.

(** ** Threads: any number of threads share one cache.  The critical sections are steps that nothing interrupts (they hold
    the lock, 94-116 and 118-136); computing the hash and reading the entry happen outside. *)
Inductive hphase : Type :=
| HIdle
| HEnter (k : K)                    (* called, before the first section *)
| HFound (k : K) (p : option Z)     (* after the first section, before the read of 112 *)
| HMiss (k : K)                     (* after the first section, before the hash is computed *)
| HMade (k : K) (v : V)             (* before the second section *)
| HDone (k : K) (v : V).            (* about to return *)
Record hthread : Type := mkHT { ht_phase : hphase; ht_todo : list K }.
Record hstate : Type := mkHS { hs_cache : hcache; hs_threads : nat -> hthread }.
Definition hupd (ts : nat -> hthread) (t : nat) (x : hthread) : nat -> hthread := fun u => if Nat.eqb u t then x else ts u.

Inductive hevent : Type := HCall (t : nat) (k : K) | HSection (t : nat) | HReturn (t : nat) (k : K) (v : V).

Inductive hstep : hstate -> option hevent -> hstate -> Prop :=
| hs_call c ts t k rest : ts t = mkHT HIdle (k :: rest) ->
    hstep (mkHS c ts) (Some (HCall t k)) (mkHS c (hupd ts t (mkHT (HEnter k) rest)))
| hs_look c ts t k rest p c' : ts t = mkHT (HEnter k) rest -> section_look k c = Ok (p, c') ->
    hstep (mkHS c ts) (Some (HSection t)) (mkHS c' (hupd ts t (mkHT (match p with Some _ => HFound k p | None => HMiss k end) rest)))
| hs_read c ts t k p rest v : ts t = mkHT (HFound k p) rest -> read_entry p c = Ok v ->
    hstep (mkHS c ts) (Some (HReturn t k v)) (mkHS c (hupd ts t (mkHT HIdle rest)))
| hs_make c ts t k rest v : ts t = mkHT (HMiss k) rest -> hash k = Ok v ->
    hstep (mkHS c ts) None (mkHS c (hupd ts t (mkHT (HMade k v) rest)))
| hs_insert c ts t k v rest c' : ts t = mkHT (HMade k v) rest -> section_insert k v c = Ok c' ->
    hstep (mkHS c ts) (Some (HSection t)) (mkHS c' (hupd ts t (mkHT (HDone k v) rest)))
| hs_return c ts t k v rest : ts t = mkHT (HDone k v) rest ->
    hstep (mkHS c ts) (Some (HReturn t k v)) (mkHS c (hupd ts t (mkHT HIdle rest))).

(** executions from a new cache, each thread [t] hashing the keys [todo t], and their events in order *)
Inductive hexec (capacity : Z) (todo : nat -> list K) : list hevent -> hstate -> Prop :=
| hx_new c : newHashCache capacity = Ok c -> hexec capacity todo [] (mkHS c (fun t => mkHT HIdle (todo t)))
| hx_tau es x y : hexec capacity todo es x -> hstep x None y -> hexec capacity todo es y
| hx_event es x e y : hexec capacity todo es x -> hstep x (Some e) y -> hexec capacity todo (es ++ [e]) y.
End HashCache.
Arguments hcache : clear implicits. Arguments hstate : clear implicits. Arguments hevent : clear implicits.
Arguments hphase : clear implicits. Arguments hthread : clear implicits.

(** ** sha3HashCache *)
Fixpoint list_eqb (a b : list Z) : bool :=
  match a, b with [], [] => true | x :: a, y :: b => (x =? y) && list_eqb a b | _, _ => false end.
(** 23-26 *)
Record sha3HashCache : Type := mkSHC { cache32 : hcache (list Z) (list Z); cache64 : hcache (list Z) (list Z) }.
Section Sha3HashCache.
Variable empty : list Z.    (* emptyKeccak256Hash, keccak.go:52 *)
(** 29-38; instructions.go:528 passes 1<<16 and 1<<18 *)
Definition newSha3HashCache (capacity32 capacity64 : Z) : res sha3HashCache :=
  do! c32 <- newHashCache list_eqb (zeros 32) (zeros 32) Keccak256For32byte capacity32;
  do! c64 <- newHashCache list_eqb (zeros 64) (zeros 32) (Keccak256 empty) capacity64;
  Ok (mkSHC c32 c64).
(** 41-53 *)
Definition sha3_cached (data : list Z) (c : sha3HashCache) : res (list Z * sha3HashCache) :=
  if zlen data =? 32 then
    do! '(h, c32) <- getHash list_eqb Keccak256For32byte data (cache32 c); Ok (h, mkSHC c32 (cache64 c))
  else if zlen data =? 64 then
    do! '(h, c64) <- getHash list_eqb (Keccak256 empty) data (cache64 c); Ok (h, mkSHC (cache32 c) c64)
  else do! h <- Keccak256 empty data; Ok (h, c).
(** a history of calls *)
Fixpoint sha3_history (datas : list (list Z)) (c : sha3HashCache) : res (list (list Z) * sha3HashCache) :=
  match datas with
  | [] => Ok ([], c)
  | d :: ds => do! '(h, c) <- sha3_cached d c; do! '(hs, c) <- sha3_history ds c; Ok (h :: hs, c)
  end.
End Sha3HashCache.
