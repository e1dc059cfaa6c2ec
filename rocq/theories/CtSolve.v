(** The integer constraint solvers of the conformance test generators,
    go/ct/gen/range_solver.go and go/ct/gen/interval_solver.go.
    Go's generic integer type [T constraints.Integer] is a parameter: a width in bits and
    whether the type is signed; arithmetic in [T] wraps. *)
From Verif Require Import Base.

(** The Go integer types: [int], [int64], [tosca.Gas] = (true,64), [uint64] = (false,64),
    [int8] = (true,8), ... *)
Record itype := mkItype { it_signed : bool; it_width : Z }.

(** A Go integer of type [T]: the range of the type (Go specification, not in /repo). *)
Definition it_min (T : itype) : Z := if it_signed T then - 2 ^ (it_width T - 1) else 0.
Definition it_max (T : itype) : Z := if it_signed T then 2 ^ (it_width T - 1) - 1 else 2 ^ it_width T - 1.
Definition in_type (T : itype) (z : Z) : Prop := it_min T <= z <= it_max T.
(** Go's conversion [T(x)] and the wrapping of [+] and [-] in [T] (Go specification). *)
Definition conv (T : itype) (z : Z) : Z := (z - it_min T) mod 2 ^ it_width T + it_min T.

Definition tInt : itype := mkItype true 64.
Definition tUint64 : itype := mkItype false 64.
Definition tInt8 : itype := mkItype true 8.

(** What [*rand.Rand] delivers: [Uint64n n] and [Uint64 ()]; pgregory.net/rand, not in
    /repo, is modelled by any answers in the documented ranges. *)
Record random := mkRandom { Uint64n : Z -> Z; Uint64 : Z }.
Definition proper (r : random) : Prop := (forall n, 0 < n -> 0 <= Uint64n r n < n) /\ 0 <= Uint64 r < 2 ^ 64.

(** Result of a [Generate]: a value, ErrUnsatisfiable, or the "internal error" of
    interval_solver.go:138 *)
Inductive generated := Value (v : Z) | Unsatisfiable | InternalError.

Section IntType.
Variable T : itype.

(** *** range_solver.go *)

(** range_solver.go:29-31 RangeSolver[T] *)
Record RangeSolver := mkRange { rs_min : Z; rs_max : Z }.
(** range_solver.go:33-35 *)
Definition NewRangeSolver (min max : Z) : RangeSolver := mkRange min max.
(** range_solver.go:41-45 *)
Definition RangeAddLower (min : Z) (s : RangeSolver) : RangeSolver := if min >? rs_min s then mkRange min (rs_max s) else s.
(** range_solver.go:51-55 *)
Definition RangeAddUpper (max : Z) (s : RangeSolver) : RangeSolver := if max <? rs_max s then mkRange (rs_min s) max else s.
(** range_solver.go:57-60 *)
Definition RangeAddEqual (value : Z) (s : RangeSolver) : RangeSolver := RangeAddUpper value (RangeAddLower value s).
(** range_solver.go:62-64 *)
Definition RangeIsSatisfiable (s : RangeSolver) : bool := negb (rs_min s >? rs_max s).
(** range_solver.go:74-83 *)
Definition RangeGenerate (r : random) (s : RangeSolver) : generated :=
  if rs_min s >? rs_max s then Unsatisfiable
  else let diff := conv T (rs_max s - rs_min s) in
    if u64 diff =? kU64Max then Value (conv T (Uint64 r))
    else Value (conv T (conv T (Uint64n r (u64 (u64 diff + 1))) + rs_min s)).

(** *** interval_solver.go *)

(** interval_solver.go:161-163 interval[T] *)
Record interval := mkInt { low : Z; high : Z }.
(** interval_solver.go:165-167 *)
Definition int_contains (i : interval) (x : Z) : bool := (low i <=? x) && (x <=? high i).
(** interval_solver.go:169-171 *)
Definition int_isEmpty (i : interval) : bool := low i >? high i.
(** interval_solver.go:173-183 *)
Inductive relation := isEqual | isBefore | isAfter | isSubset | isSuperset | intersectsWithStart | intersectsWithEnd.
(** interval_solver.go:185-205 *)
Definition getRelationTo (i other : interval) : relation :=
  if (low i =? low other) && (high i =? high other) then isEqual
  else if high i <? low other then isBefore
  else if low i >? high other then isAfter
  else if (low i <? low other) && (high other <? high i) then isSubset
  else if (low other <=? low i) && (high i <=? high other) then isSuperset
  else if (low other <=? high i) && (high i <=? high other) then intersectsWithEnd
  else intersectsWithStart.

(** interval_solver.go:29-31: the solver is its list of intervals; 35-43 *)
Definition NewIntervalSolver (min max : Z) : list interval := if int_isEmpty (mkInt min max) then [] else [mkInt min max].

(** interval_solver.go:53-72: the loop body *)
Definition exclude_one (min max : Z) (current : interval) : list interval :=
  let newLeft := mkInt (low current) (conv T (min - 1)) in
  let newRight := mkInt (conv T (max + 1)) (high current) in
  match getRelationTo current (mkInt min max) with
  | isEqual => []
  | isSubset => [newLeft; newRight]
  | isSuperset => []
  | intersectsWithStart => [newRight]
  | intersectsWithEnd => [newLeft]
  | _ => [current]
  end.
(** interval_solver.go:47-74 *)
Definition Exclude (min max : Z) (s : list interval) : list interval := if max <? min then s else flat_map (exclude_one min max) s.

(** interval_solver.go:76-83 *)
Definition Contains (s : list interval) (value : Z) : bool := existsb (fun i => int_contains i value) s.

(** interval_solver.go:90-99 *)
Definition AddLowerBoundary (value : Z) (s : list interval) : list interval :=
  match s with
  | [] => s
  | i :: _ => let min := low i in if value <=? min then s else Exclude min (conv T (value - 1)) s
  end.
(** interval_solver.go:101-110 *)
Definition AddUpperBoundary (value : Z) (s : list interval) : list interval :=
  match s with
  | [] => s
  | i :: _ => let max := high (last s i) in if value >=? max then s else Exclude (conv T (value + 1)) max s
  end.
(** interval_solver.go:85-88 *)
Definition AddEqualityConstraint (value : Z) (s : list interval) : list interval := AddLowerBoundary value (AddUpperBoundary value s).

(** interval_solver.go:112-114 *)
Definition IsSatisfiable (s : list interval) : bool := negb (Z.of_nat (length s) =? 0).

(** interval_solver.go:124,133,136: [uint64(interval.high - interval.low + 1)] *)
Definition int_size (i : interval) : Z := u64 (conv T (conv T (high i - low i) + 1)).
(** interval_solver.go:122-125 *)
Definition domainSize (s : list interval) : Z := fold_left (fun d i => u64 (d + int_size i)) s 0.
(** interval_solver.go:132-137: the loop *)
Fixpoint pick_sample (s : list interval) (sample : Z) : generated :=
  match s with
  | [] => InternalError
  | i :: s' => if int_size i >? sample then Value (conv T (low i + conv T sample)) else pick_sample s' (u64 (sample - int_size i))
  end.
(** interval_solver.go:117-139 *)
Definition Generate (r : random) (s : list interval) : generated :=
  match s with
  | [] => Unsatisfiable
  | _ => if domainSize s =? 0 then Value (conv T (Uint64 r)) else pick_sample s (Uint64n r (domainSize s))
  end.

End IntType.
