(** * go/ct/rlz/rules.go, test_value.go: enumeration of the test cases of a rule.  Test values, generators of states and the parts of
    states besides the stack are abstract; what consumers, and the random number generator, keep between calls is [W].  The test
    values of conditions (GetTestValues) are given. *)
From Verif Require Import Base.
From Coq Require Import ZArith List Bool.
Import ListNotations.
Open Scope Z_scope.

Section Values.
Context {T : Type}.
Variable property : T -> Z.            (* test_value.go:27 Property; strings, by their order *)
Variable compare : T -> T -> Z.        (* test_value.go:28 Compare *)
Variable sort : list T -> list T.      (* sort.Slice with Compare(..) < 0, of the standard library *)

(** test_value.go:93-107: the loop, in place; [o] and [i] are indexes. [fuel]: the remaining rounds *)
Fixpoint removeLoop (fuel i o : nat) (values : list T) : list T :=
  match fuel with
  | O => firstn o values
  | S fuel =>
    match nth_error values i, nth_error values (i - 1) with
    | Some a, Some b => if negb (compare a b =? 0) then removeLoop fuel (S i) (S o) (list_upd values o a) else removeLoop fuel (S i) o values
    | _, _ => values
    end
  end.
Definition removeDuplicates (values : list T) : list T :=
  if (length values <? 2)%nat then values else let values := sort values in removeLoop (length values - 1) 1 1 values.

(** maps.Keys and slices.Sort (test_value.go:69-70): the keys of the map, in order *)
Fixpoint insert_key (p : Z) (l : list Z) : list Z :=
  match l with [] => [p] | q :: l' => if p <? q then p :: l else if p =? q then l else q :: insert_key p l' end.
Definition properties (tests : list T) : list Z := fold_right (fun t l => insert_key (property t) l) [] tests.
(** test_value.go:36-52 getPropertyTestValues, 54-74: the lists of values by property, in the order of properties *)
Definition cases (tests : list T) : list (list T) :=
  map (fun p => removeDuplicates (filter (fun t => property t =? p) tests)) (properties tests).
End Values.

(** consumer.go:18-19 *)
(** ConsumeEnd stands for ConsumeAbort *)
Notation ConsumeContinue := true (only parsing).
Notation ConsumeEnd := false (only parsing).

Section TestStates.
Context {T G W : Type}.
Variable restrict : T -> G -> G.       (* test_value.go:29 Restrict, of a clone *)
Variable consumer : G -> W -> bool * W.
(** test_value.go:76-91 *)
Fixpoint enumerateTestStates (values : list (list T)) (generator : G) (w : W) : bool * W :=
  match values with
  | [] => consumer generator w
  | head :: rest =>
    (fix each (l : list T) (w : W) : bool * W :=
       match l with
       | [] => (ConsumeContinue, w)
       | cur :: l =>
         let '(res, w) := enumerateTestStates rest (restrict cur generator) w in
         if res then each l w else (ConsumeEnd, w)
       end) head w
  end.
End TestStates.

Section Enumerate.
Context {T G O W : Type}.
Variable consume : list Z * O -> W -> bool * W.   (* it must not modify the state *)
(** A state: its stack, from the top, and the rest. rules.go:66-84; the parameters are their samples. The result, and the state left *)
Fixpoint enumerateParameters (pos : nat) (params : list (list Z)) (state : list Z * O) (w : W) : bool * (list Z * O) * W :=
  match params with
  | [] => let '(res, w) := consume state w in (res, state, w)
  | samples :: rest =>
    match nth_error (fst state) pos with
    | None => let '(res, w) := consume state w in (res, state, w)
    | Some current =>
      let '(res, state, w) := enumerateParameters (S pos) rest state w in
      if res then
        (fix each (l : list Z) (state : list Z * O) (w : W) : bool * (list Z * O) * W :=
           match l with
           | [] => (ConsumeContinue, (list_upd (fst state) pos current, snd state), w)
           | value :: l =>
             let '(res, state, w) := enumerateParameters (S pos) rest (list_upd (fst state) pos value, snd state) w in
             if res then each l state w else (ConsumeEnd, state, w)
           end) samples state w
      else (ConsumeEnd, state, w)
    end
  end.

(** what Generate returns *)
Variable restrict : T -> G -> G.
Inductive generated := State (s : list Z * O) | Unsatisfiable | OtherError.
Variable generate : G -> W -> generated * W.   (* gen.StateGenerator.Generate, with the random numbers in [W] *)
(** rules.go:44-62 EnumerateTestCases; the first component: an error was returned *)
Definition EnumerateTestCases (values : list (list T)) (params : list (list Z)) (new : G) (w : W) : bool * W :=
  let consumer (g : G) (ew : bool * W) : bool * (bool * W) :=
    let '(r, w) := generate g (snd ew) in
    match r with
    | Unsatisfiable => (ConsumeContinue, (fst ew, w))
    | OtherError => (ConsumeEnd, (true, w))
    | State state => let '(res, _, w) := enumerateParameters 0 params state w in (res, (fst ew, w))
    end in
  snd (enumerateTestStates restrict consumer values new (false, w)).
End Enumerate.
(** rules.go:128-137 TotalNumberOfCases, of the domains of the values and the parameters (an int; that it is below 2^63 is not modelled) *)
Definition TotalNumberOfCases {T} (values : list (list T)) (params : list (list Z)) : Z :=
  fold_left Z.mul (map (fun samples => zlen samples + 1) params) (fold_left Z.mul (map zlen values) 1).
