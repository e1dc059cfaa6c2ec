(** What the generator of transaction contexts is asked for, and what fulfils it. *)
From Verif Require Import Base CtSolve CtGen SpecGen CtContext.
From Coq Require Import ZArith List Bool.
Import ListNotations.
Open Scope Z_scope.

Inductive blob_request := Present (x : Z) | Absent (x : Z).
Definition blob_call (t : TxGenerator) (q : blob_request) : TxGenerator :=
  match q with Present x => IsPresentBlobHashIndex x t | Absent x => IsAbsentBlobHashIndex x t end.
(** the generator after the requests, the first one first *)
Definition tx_generator (qs : list blob_request) : TxGenerator := fold_left blob_call qs NewTransactionContextGenerator.

(** the variable names the index of one of [count] hashes, or of none of them *)
Definition blob_fulfils (count : Z) (a : Assignment) (q : blob_request) : Prop :=
  match q with
  | Present x => exists k, a x = Some k /\ 0 <= k < count
  | Absent x => exists k, a x = Some k /\ count <= k < 2 ^ 256
  end.
(** there are a number of hashes, which is a uint64, and values for the variables that are not bound *)
Definition blobs_possible (a : Assignment) (qs : list blob_request) : Prop :=
  exists count b, 0 <= count < 2 ^ 64 /\ extends a b /\ Forall (blob_fulfils count b) qs.
(** a variable to name a hash and one to name none are bound to the same index, or the first one is not bound and the second one
    bound to 0 *)
Definition blob_edge (a : Assignment) (qs : list blob_request) : Prop :=
  exists x y m, In (Present x) qs /\ In (Absent y) qs /\ a y = Some m /\ (a x = Some m \/ a x = None /\ m = 0).
Definition words (a : Assignment) : Prop := forall x v, a x = Some v -> is_word v.

(** ** Block contexts *)
Inductive block_request := Revisions (lower upper : Z) | OneOfLast256 (x : Z) | NoneOfLast256 (x : Z) | Offset (x offset : Z).
Definition block_call (g : BlockGenerator) (q : block_request) : BlockGenerator :=
  match q with
  | Revisions lo hi => AddRevisionBounds lo hi g
  | OneOfLast256 x => RestrictVariableToOneOfTheLast256Blocks x g
  | NoneOfLast256 x => RestrictVariableToNoneOfTheLast256Blocks x g
  | Offset x o => SetBlockNumberOffsetValue x o g
  end.
Definition block_generator (qs : list block_request) : BlockGenerator := fold_left block_call qs NewBlockContextGenerator.
(** revisions that exist: Istanbul (0) to Cancun (5), and the unknown next one; offsets are int64, and their negation is *)
Definition block_request_ok (q : block_request) : Prop :=
  match q with
  | Revisions lo hi => (0 <= lo <= 5 \/ lo = 99) /\ (0 <= hi <= 5 \/ hi = 99)
  | Offset _ o => - 2 ^ 63 < o < 2 ^ 63
  | _ => True
  end.
(** the revision in force: a new one every 1000 blocks, or units of time *)
Definition revision_at (n : Z) : Z := if n <? 6000 then n / 1000 else 99.
(** block [k] is one of the last 256 before block [n] *)
Definition recent (n k : Z) : Prop := 0 <= k /\ n - 256 <= k < n.
Definition block_fulfils (n : Z) (a : Assignment) (q : block_request) : Prop :=
  match q with
  | Revisions lo hi => lo <= revision_at n <= hi
  | OneOfLast256 x => exists k, a x = Some k /\ recent n k
  | NoneOfLast256 x => exists k, a x = Some k /\ is_word k /\ ~ recent n k
  | Offset x o => a x = Some (n - o) /\ 0 <= n - o
  end.
(** block number [n] and some values for the variables that are not bound fulfil the requests *)
Definition block_possible (a : Assignment) (qs : list block_request) (n : Z) : Prop :=
  0 <= n < 2 ^ 64 /\ exists b, extends a b /\ Forall (block_fulfils n b) qs.
