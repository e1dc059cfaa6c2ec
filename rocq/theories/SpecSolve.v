(** Specification of the solvers: what the constraints mean. *)
From Verif Require Import Base CtSolve.

Inductive constraint := AtLeast (v : Z) | AtMost (v : Z) | Exactly (v : Z) | Outside (lo hi : Z).

(** A value obeys a constraint. [Outside lo hi] forbids lo, lo+1, ..., hi. *)
Definition obeys (v : Z) (c : constraint) : Prop :=
  match c with
  | AtLeast b => b <= v
  | AtMost b => v <= b
  | Exactly b => v = b
  | Outside lo hi => v < lo \/ hi < v
  end.

(** The constants of a constraint are values of the integer type. *)
Definition typed (T : itype) (c : constraint) : Prop :=
  match c with AtLeast b | AtMost b | Exactly b => in_type T b | Outside lo hi => in_type T lo /\ in_type T hi end.

(** A value is a solution: it is in [min,max] and obeys all constraints. *)
Definition solution (min max : Z) (cs : list constraint) (v : Z) : Prop := min <= v <= max /\ Forall (obeys v) cs.

(** The API calls adding the constraints to a solver, in order. A RangeSolver has no
    operation for [Outside]; such lists are not given to it ([bounds]). *)
Definition bounds (c : constraint) : Prop := match c with Outside _ _ => False | _ => True end.

Definition range_add (s : RangeSolver) (c : constraint) : RangeSolver :=
  match c with AtLeast b => RangeAddLower b s | AtMost b => RangeAddUpper b s | Exactly b => RangeAddEqual b s | Outside _ _ => s end.
Definition interval_add (T : itype) (s : list interval) (c : constraint) : list interval :=
  match c with
  | AtLeast b => AddLowerBoundary T b s | AtMost b => AddUpperBoundary T b s
  | Exactly b => AddEqualityConstraint T b s | Outside lo hi => Exclude T lo hi s
  end.

Definition range_solver (min max : Z) (cs : list constraint) : RangeSolver := fold_left range_add cs (NewRangeSolver min max).
Definition interval_solver (T : itype) (min max : Z) (cs : list constraint) : list interval := fold_left (interval_add T) cs (NewIntervalSolver min max).

(** The types for which differences of two values fit into 64 bits without a sign:
    unsigned types, and 64-bit types. Every use in go/ct (stack size: int, gas: tosca.Gas,
    block number: uint64) is of that kind. *)
Definition suitable (T : itype) : Prop := 0 < it_width T <= 64 /\ (it_signed T = false \/ it_width T = 64).

(** A generator of values is right for a set of solutions: it fails exactly if there is
    none, returns solutions only, and can return each of them. *)
Definition generates (gen : random -> generated) (sol : Z -> Prop) : Prop :=
  (forall r, proper r -> match gen r with Value v => sol v | Unsatisfiable => forall v, ~ sol v | InternalError => False end) /\
  (forall v, sol v -> exists r, proper r /\ gen r = Value v).
