(** The generator of transaction contexts for the conformance tests: go/ct/gen/transaction_context.go.  Variables and assignments are
    as in CtGen.v.  The hashes themselves and the origin address are random bytes that nothing depends on; of the list of hashes the
    length is modelled.  Left out: Clone, Restore, String. *)
From Verif Require Import Base CtSolve CtGen.
From Coq Require Import ZArith List Bool.
Import ListNotations.
Open Scope Z_scope.

(** a value of type uint256 fits into 64 bits *)
Definition IsUint64 (v : Z) : bool := v <? 2 ^ 64.
(** an error of a solver; "internal error" is an error as well, but no generator below gets it (see the theorems) *)
Definition solved (g : generated) : outcome Z := match g with Value v => Generated v | Unsatisfiable => ErrUnsatisfiable | InternalError => Panics end.
Definition uint64 (v : Z) : Z := v mod 2 ^ 64.

(** transaction_context.go:24-29; the map blobHashVariables as the list of its entries *)
Record TxGenerator := mkTxGen { tg_unsat : bool; tg_vars : list (Z * bool) }.
(** 31-33 *)
Definition NewTransactionContextGenerator : TxGenerator := mkTxGen false [].
(** 139-151 ([present] = true), 153-165 ([present] = false), 167-170 *)
Definition BlobHashIndex (present : bool) (variable : Z) (t : TxGenerator) : TxGenerator :=
  if tg_unsat t then t
  else match lookup (tg_vars t) variable with
    | None => mkTxGen false (tg_vars t ++ [(variable, present)])
    | Some val => if Bool.eqb val present then t else mkTxGen true []
    end.
Definition IsPresentBlobHashIndex : Z -> TxGenerator -> TxGenerator := BlobHashIndex true.
Definition IsAbsentBlobHashIndex : Z -> TxGenerator -> TxGenerator := BlobHashIndex false.

(** 44-60: the loop over the bound variables, in the order of the map; the maximum of the values of variables that must have a hash and
    the minimum of those that must not *)
Fixpoint bound_indices (a : Assignment) (order : list (Z * bool)) (most least : Z) : outcome (Z * Z) :=
  match order with
  | [] => Generated (most, least)
  | (variable, hasBlobHash) :: order' =>
    match a variable with
    | None => bound_indices a order' most least
    | Some v =>
      if hasBlobHash then
        if negb (IsUint64 v) then ErrUnsatisfiable
        else bound_indices a order' (if v >? most then v else most) least
      else bound_indices a order' most (if IsUint64 v && (v <? least) then v else least)
    end
  end.
(** 71-85: the loop over the unbound variables; [rnd i] are the numbers drawn in iteration [i] *)
Fixpoint bind_indices (rnd : nat -> random) (i : nat) (count : Z) (order : list (Z * bool)) (a : Assignment) : outcome Assignment :=
  match order with
  | [] => Generated a
  | (variable, hasBlobHash) :: order' =>
    match a variable with
    | Some _ => bind_indices rnd (S i) count order' a
    | None =>
      let s := if hasBlobHash then NewRangeSolver 0 (uint64 (count - 1)) else NewRangeSolver count (2 ^ 64 - 1) in
      gen! v <- solved (RangeGenerate tUint64 (rnd i) s);
      bind_indices rnd (S i) count order' (put a variable v)
    end
  end.
(** 35-99 Generate: the length of BlobHashes, and the assignment; [order] and [order'] are the orders in which the Go runtime iterates
    over the map in the two loops *)
Definition TxGenerate (rnd : nat -> random) (order order' : list (Z * bool)) (a : Assignment) (t : TxGenerator) : outcome (Z * Assignment) :=
  if tg_unsat t then ErrUnsatisfiable
  else
    gen! ' (most, least) <- bound_indices a order 0 (2 ^ 64 - 1);
    if (most >? least) || (most =? 2 ^ 64 - 1) then ErrUnsatisfiable
    else
      let count := uint64 (if negb (least =? 0) then most + 1 else most) in
      gen! b <- bind_indices rnd 0 count order' a;
      Generated (count, b).

(** * go/ct/gen/block_context.go: the block number, the time stamp and the assignment; the other fields are random numbers that nothing
    depends on.  Left out: Clone, Restore, String. *)
(** go/ct/common/revisions.go:31-48 GetForkBlock, 55-72 GetForkTime: the same numbers *)
Definition GetForkBlock (revision : Z) : Z :=
  if revision =? 0 then 0 else if revision =? 1 then 1000 else if revision =? 2 then 2000 else if revision =? 3 then 3000
  else if revision =? 4 then 4000 else if revision =? 5 then 5000 else 6000.
Definition GetForkTime : Z -> Z := GetForkBlock.
(** 75-83, with MinRevision = 0, NewestSupportedRevision = 5 and R99_UnknownNextRevision = 99; the loop from [rev] with [n] iterations left *)
Fixpoint revision_loop (n : nat) (rev block : Z) : Z :=
  match n with
  | O => 99
  | S n => if block <? GetForkBlock rev then rev - 1 else revision_loop n (rev + 1) block
  end.
Definition GetRevisionForBlock (block : Z) : Z := revision_loop 7 0 block.
(** 87-101; the error is always nil *)
Definition GetBlockRangeLengthFor (revision : Z) : Z :=
  if revision <=? 5 then uint64 (GetForkBlock (revision + 1) - GetForkBlock revision) else 2 ^ 64 - 1.

(** block_context.go:26-45; maps as lists of entries *)
Record BlockGenerator := mkBlockGen { bg_solver : option RangeSolver; bg_range : list (Z * bool); bg_value : list (Z * Z); bg_unsat : bool }.
(** 47-49 *)
Definition NewBlockContextGenerator : BlockGenerator := mkBlockGen None [] [] false.
(** 396-401 markUnsatisfiable *)
Definition block_unsat : BlockGenerator := mkBlockGen None [] [] true.
(** 314-328 ([inRange] = true), 330-344 ([inRange] = false) *)
Definition RestrictVariable (inRange : bool) (variable : Z) (b : BlockGenerator) : BlockGenerator :=
  if bg_unsat b then b
  else match lookup (bg_range b) variable with
    | Some v => if Bool.eqb v inRange then b else block_unsat
    | None => mkBlockGen (bg_solver b) (bg_range b ++ [(variable, inRange)]) (bg_value b) (bg_unsat b)
    end.
Definition RestrictVariableToOneOfTheLast256Blocks : Z -> BlockGenerator -> BlockGenerator := RestrictVariable true.
Definition RestrictVariableToNoneOfTheLast256Blocks : Z -> BlockGenerator -> BlockGenerator := RestrictVariable false.
Definition lookup_offset (l : list (Z * Z)) (k : Z) : option Z := match find (fun p => fst p =? k) l with Some p => Some (snd p) | None => None end.
(** 346-360 *)
Definition SetBlockNumberOffsetValue (variable offset : Z) (b : BlockGenerator) : BlockGenerator :=
  if bg_unsat b then b
  else match lookup_offset (bg_value b) variable with
    | Some v => if v =? offset then b else block_unsat
    | None => mkBlockGen (bg_solver b) (bg_range b) (bg_value b ++ [(variable, offset)]) (bg_unsat b)
    end.
(** 366-394 *)
Definition AddRevisionBounds (lower upper : Z) (b : BlockGenerator) : BlockGenerator :=
  if bg_unsat b then b
  else if (lower >? upper) || (lower <? 0) || (upper <? 0) then block_unsat
  else
    let min := GetForkBlock lower in
    let max := GetForkBlock upper in
    let len := GetBlockRangeLengthFor upper in
    let max := if len >=? uint64 (2 ^ 64 - 1 - max) then 2 ^ 64 - 1 else uint64 (max + uint64 (len - 1)) in
    let s := match bg_solver b with None => NewRangeSolver min max | Some s => RangeAddUpper max (RangeAddLower min s) end in
    if RangeIsSatisfiable s then mkBlockGen (Some s) (bg_range b) (bg_value b) (bg_unsat b) else block_unsat.
(** 362-364 *)
Definition SetRevision (revision : Z) : BlockGenerator -> BlockGenerator := AddRevisionBounds revision revision.

(** 403-410; types uint256 and int64 *)
Definition addOffset (value offset : Z) : Z * bool :=
  if offset <? 0 then let result := (value - uint64 (- offset)) mod 2 ^ 256 in (result, result >? value)
  else let result := (value + offset) mod 2 ^ 256 in (result, result <? value).
(** 412-415 *)
Definition addWithOverflowCheck (x y : Z) : Z * bool := let result := uint64 (x + y) in (result, result <? x).
(** 417-420 *)
Definition isInRange (lowerBound currentValue upperBound : Z) : bool := IsUint64 currentValue && (lowerBound <=? currentValue) && (currentValue <=? upperBound).

(** 61-69: the loop *)
Fixpoint value_bounds (a : Assignment) (order : list (Z * Z)) (s : list interval) : outcome (list interval) :=
  match order with
  | [] => Generated s
  | (variable, offset) :: order' =>
    match a variable with
    | None => value_bounds a order' s
    | Some v =>
      let '(wantedBlock, overflow) := addOffset v offset in
      if overflow || negb (IsUint64 wantedBlock) then ErrUnsatisfiable
      else value_bounds a order' (AddEqualityConstraint tUint64 wantedBlock s)
    end
  end.
(** 72-105: the loop *)
Fixpoint range_bounds (a : Assignment) (order : list (Z * bool)) (s : list interval) : outcome (list interval) :=
  match order with
  | [] => Generated s
  | (variable, inRange) :: order' =>
    match a variable with
    | Some v =>
      if inRange then
        if negb (IsUint64 v) then ErrUnsatisfiable
        else
          let '(lower, overflow) := addWithOverflowCheck v 1 in
          if overflow then ErrUnsatisfiable
          else
            let s := AddLowerBoundary tUint64 lower s in
            let '(upper, overflow) := addWithOverflowCheck v 256 in
            range_bounds a order' (if negb overflow then AddUpperBoundary tUint64 upper s else s)
      else
        let max := 2 ^ 64 - 1 in
        if IsUint64 v && (v <? max) then
          range_bounds a order' (Exclude tUint64 (uint64 (v + 1)) (if v <? max - 256 then uint64 (v + 256) else max) s)
        else range_bounds a order' s
    | None => range_bounds a order' (if inRange then AddLowerBoundary tUint64 1 s else s)
    end
  end.
(** 51-108 *)
Definition generateBlockNumber (r : random) (vo : list (Z * Z)) (ro : list (Z * bool)) (a : Assignment) (b : BlockGenerator) : outcome Z :=
  let s := NewIntervalSolver 0 (2 ^ 64 - 1) in
  let s := match bg_solver b with Some rs => AddUpperBoundary tUint64 (rs_max rs) (AddLowerBoundary tUint64 (rs_min rs) s) | None => s end in
  gen! s <- value_bounds a vo s;
  gen! s <- range_bounds a ro s;
  solved (Generate tUint64 r s).
(** 110-128; -offset is an int64 *)
Fixpoint bind_offsets (n : Z) (order : list (Z * Z)) (a : Assignment) : outcome Assignment :=
  match order with
  | [] => Generated a
  | (variable, offset) :: order' =>
    let '(requiredValue, underflow) := addOffset n (s64 (- offset)) in
    if underflow then ErrUnsatisfiable
    else bind_offsets n order' (match a variable with Some _ => a | None => put a variable requiredValue end)
  end.
(** 130-163; [rnd i] are the random numbers of iteration [i] *)
Definition lower_bound (n : Z) : Z := if n >? 256 then n - 256 else 0.
Fixpoint bind_ranges (rnd : nat -> random) (i : nat) (n : Z) (order : list (Z * bool)) (a : Assignment) : outcome Assignment :=
  match order with
  | [] => Generated a
  | (variable, inRange) :: order' =>
    match a variable with
    | Some v => if negb (Bool.eqb inRange (isInRange (lower_bound n) v n)) then ErrUnsatisfiable else bind_ranges rnd (S i) n order' a
    | None =>
      gen! v <- solved (if inRange then RangeGenerate tUint64 (rnd i) (NewRangeSolver (lower_bound n) (uint64 (n - 1)))
        else Generate tUint64 (rnd i) (Exclude tUint64 (uint64 (n - 256)) (uint64 (n - 1)) (NewIntervalSolver 0 (2 ^ 64 - 1))));
      bind_ranges rnd (S i) n order' (put a variable v)
    end
  end.
(** 165-213: block number, time stamp, assignment.  [vo], [ro] and [vo'], [ro'] are the orders of the maps valueConstraint and
    rangeConstraints in the loops of generateBlockNumber, and in the others; Uint64n(0) is 0 (package pgregory.net/rand) *)
Definition BlockGenerate (r : random) (rnd : nat -> random) (rt : random) (vo : list (Z * Z)) (ro : list (Z * bool)) (vo' : list (Z * Z)) (ro' : list (Z * bool))
    (a : Assignment) (b : BlockGenerator) : outcome (Z * Z * Assignment) :=
  if bg_unsat b then ErrUnsatisfiable
  else
    gen! n <- generateBlockNumber r vo ro a b;
    gen! a1 <- bind_offsets n vo' a;
    gen! a2 <- bind_ranges rnd 0 n ro' a1;
    let revision := GetRevisionForBlock n in
    let time := GetForkTime revision in
    let nextTime := GetForkTime (revision + 1) in
    let d := uint64 (nextTime - time) in
    Generated (n, uint64 ((if d =? 0 then 0 else Uint64n rt d) + time), a2).
