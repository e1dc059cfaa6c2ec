(** Enumeration: all combinations of one value per list, in order, until a consumer aborts. *)
From Verif Require Import Base CtEnum.
From Coq Require Import ZArith List Bool.
Import ListNotations.
Open Scope Z_scope.

(** calls for the elements of a list, one after the other, until one returns false *)
Fixpoint calls {X W} (k : X -> W -> bool * W) (l : list X) (w : W) : bool * W :=
  match l with [] => (true, w) | x :: l => let '(res, w) := k x w in if res then calls k l w else (false, w) end.
(** one value of each list *)
Fixpoint product {T} (values : list (list T)) : list (list T) :=
  match values with [] => [[]] | l :: rest => flat_map (fun x => map (cons x) (product rest)) l end.
(** stacks with the samples of parameters, or the present value, at the positions of parameters *)
Fixpoint variants (params : list (list Z)) (stack : list Z) : list (list Z) :=
  match params, stack with
  | samples :: params, v :: stack => flat_map (fun x => map (cons x) (variants params stack)) (v :: samples)
  | _, _ => [stack]
  end.
(** one combination of test values: the states from a generated one, if there is one; another error ends the enumeration, and is returned *)
Definition one_combination {T G O W} (restrict : T -> G -> G) (generate : G -> W -> @generated O * W) (params : list (list Z)) (new : G) (consume : list Z * O -> W -> bool * W)
    (combination : list T) (ew : bool * W) : bool * (bool * W) :=
  let '(r, w) := generate (fold_left (fun g t => restrict t g) combination new) (snd ew) in
  match r with
  | Unsatisfiable => (true, (fst ew, w))
  | OtherError => (false, (true, w))
  | State (stack, o) => let '(res, w) := calls (fun s => consume (s, o)) (variants params stack) w in (res, (fst ew, w))
  end.

(** a total order (here, by a number for each value), and sorting by it *)
Definition ordered {T} (property : T -> Z) (compare : T -> T -> Z) (rank : T -> Z) : Prop :=
  forall a b, property a = property b -> (compare a b = 0 <-> rank a = rank b) /\ (compare a b < 0 <-> rank a < rank b).
Inductive in_order {T} (less : T -> T -> Prop) : list T -> Prop :=
| in_order_nil : in_order less []
| in_order_cons a l : Forall (less a) l -> in_order less l -> in_order less (a :: l).
Definition sorts {T} (property : T -> Z) (rank : T -> Z) (sort : list T -> list T) : Prop :=
  forall l, (forall a b, In a l -> In b l -> property a = property b) -> (forall a, In a (sort l) <-> In a l) /\ length (sort l) = length l /\ in_order (fun a b => rank a <= rank b) (sort l).

(** Counting the calls of a consumer: the number is kept beside [W]. *)
Definition counted {O W} (consume : list Z * O -> W -> bool * W) (s : list Z * O) (wn : W * Z) : bool * (W * Z) :=
  let '(r, w) := consume s (fst wn) in (r, (w, snd wn + 1)).
Definition uncounted {G O W} (generate : G -> W -> @generated O * W) (g : G) (wn : W * Z) : @generated O * (W * Z) :=
  let '(r, w) := generate g (fst wn) in (r, (w, snd wn)).
