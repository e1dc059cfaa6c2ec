(** The generators of stacks and storages for the conformance tests:
    go/ct/gen/stack.go, go/ct/gen/storage.go and go/ct/gen/transient_storage.go.
    Variables (strings in gen/assignment.go:29) are integers in the order of the strings; an
    [Assignment] (a Go map) is a function; a nil map (for which the assignments in
    storage.go:155,194 would panic) is not modelled. Values of type U256 are integers. *)
From Verif Require Import Base Host GoStorage CtSolve.

(** gen/assignment.go:37 *)
Definition Assignment := Z -> option Z.
(** Assigning a map entry: [assignment[v] = value]; also used for the maps of st.Storage. *)
Definition put {A} (m : Z -> option A) (k : Z) (a : A) : Z -> option A := fun x => if x =? k then Some a else m x.

(** The outcomes of a [Generate]: a result, the two errors of gen/error.go, a Go panic; and
    [Running] if the model's bound on the length of retry loops is exceeded (no behaviour
    of the code; see the theorems on termination). *)
Inductive outcome (A : Type) := Generated (a : A) | ErrUnsatisfiable | ErrUnboundVariable | Panics | Running.
Arguments Generated {A} a. Arguments ErrUnsatisfiable {A}. Arguments ErrUnboundVariable {A}. Arguments Panics {A}. Arguments Running {A}.

Definition gbind {A B} (m : outcome A) (k : A -> outcome B) : outcome B :=
  match m with Generated a => k a | ErrUnsatisfiable => ErrUnsatisfiable | ErrUnboundVariable => ErrUnboundVariable | Panics => Panics | Running => Running end.
Notation "'gen!' x <- m ; k" := (gbind m (fun x => k)) (at level 200, x name, m at level 100, k at level 200, right associativity).
Notation "'gen!' ' p <- m ; k" := (gbind m (fun p => k)) (at level 200, p pattern, m at level 100, k at level 200, right associativity).

(** *** stack.go *)

(** stack.go:25-34,43-46 *)
Record StackGenerator := mkStackGen { sg_size : RangeSolver; sg_const : list (Z * Z); sg_var : list (Z * Z) }.
(** stack.go:55-59; MaxStackSize is st/stack.go:22 *)
Definition NewStackGenerator : StackGenerator := mkStackGen (NewRangeSolver 0 1024) [] [].
(** stack.go:61-63, 65-67, 69-71 *)
Definition AddMinSize (n : Z) (g : StackGenerator) : StackGenerator := mkStackGen (RangeAddLower n (sg_size g)) (sg_const g) (sg_var g).
Definition AddMaxSize (n : Z) (g : StackGenerator) : StackGenerator := mkStackGen (RangeAddUpper n (sg_size g)) (sg_const g) (sg_var g).
Definition SetSize (n : Z) (g : StackGenerator) : StackGenerator := mkStackGen (RangeAddEqual n (sg_size g)) (sg_const g) (sg_var g).
(** slices.Contains on pairs *)
Definition has_pair (l : list (Z * Z)) (v : Z * Z) : bool := existsb (fun p => (fst p =? fst v) && (snd p =? snd v)) l.
(** stack.go:73-78 *)
Definition SetValue (pos value : Z) (g : StackGenerator) : StackGenerator :=
  if has_pair (sg_const g) (pos, value) then g else mkStackGen (sg_size g) (sg_const g ++ [(pos, value)]) (sg_var g).
(** stack.go:80-85 *)
Definition BindValue (pos variable : Z) (g : StackGenerator) : StackGenerator :=
  if has_pair (sg_var g) (pos, variable) then g else mkStackGen (sg_size g) (sg_const g) (sg_var g ++ [(pos, variable)]).

(** stack.go:92-101 *)
Fixpoint resolve (a : Assignment) (vars : list (Z * Z)) : option (list (Z * Z)) :=
  match vars with
  | [] => Some []
  | (pos, x) :: vars' =>
    match a x with
    | None => None
    | Some value => match resolve a vars' with None => None | Some l => Some ((pos, value) :: l) end
    end
  end.
(** stack.go:136-144 *)
Definition maxPositionInValues (l : list (Z * Z)) : Z := fold_left (fun max c => if fst c >? max then fst c else max) l (-1).

(** stack.go:114-124: the stack (positions counted from the top, st/stack.go:91-93) and
    the mask; an index outside of the mask is a panic. *)
Fixpoint apply_values (l : list (Z * Z)) (stack : list Z) (mask : list bool) : outcome (list Z * list bool) :=
  match l with
  | [] => Generated (stack, mask)
  | (pos, value) :: l' =>
    if pos <? 0 then ErrUnsatisfiable
    else match znth mask pos with
      | None => Panics
      | Some true => ErrUnsatisfiable
      | Some false => apply_values l' (list_upd stack (Z.to_nat pos) value) (list_upd mask (Z.to_nat pos) true)
      end
  end.
(** stack.go:126-131; [fill i] is the random number drawn for position [i] *)
Fixpoint fill_rest (fill : nat -> Z) (i : nat) (stack : list Z) (mask : list bool) : list Z :=
  match stack, mask with
  | v :: stack', b :: mask' => (if b then v else fill i) :: fill_rest fill (S i) stack' mask'
  | _, _ => []
  end.
(** stack.go:87-134. [old] is the unspecified content of the pooled stack that
    st.NewStackWithSize returns (st/stack.go:46-53). *)
Definition StackGenerate (r : random) (fill : nat -> Z) (old : list Z) (a : Assignment) (g : StackGenerator) : outcome (list Z) :=
  match resolve a (sg_var g) with
  | None => ErrUnboundVariable
  | Some vs =>
    let constraints := sg_const g ++ vs in
    match RangeGenerate tInt r (RangeAddLower (conv tInt (maxPositionInValues constraints + 1)) (sg_size g)) with
    | Value size =>
      if (size <? 0) || (size >? zlen old) then Panics
      else gen! ' (stack, mask) <- apply_values constraints (firstn (Z.to_nat size) old) (repeat false (Z.to_nat size));
        Generated (fill_rest fill 0 stack mask)
    | _ => ErrUnsatisfiable
    end
  end.
(** stack.go:105: Generate also changes its generator. *)
Definition after_generate (a : Assignment) (g : StackGenerator) : StackGenerator :=
  match resolve a (sg_var g) with
  | None => g
  | Some vs => mkStackGen (RangeAddLower (conv tInt (maxPositionInValues (sg_const g ++ vs) + 1)) (sg_size g)) (sg_const g) (sg_var g)
  end.

(** *** storage.go *)

(** storage.go:31-35 *)
Record config := mkConfig { c_config : storage_status; c_key : Z; c_new : Z }.
(** storage.go:72-75 *)
Record warmcold := mkWarm { wc_key : Z; wc_warm : bool }.
(** storage.go:26-29 *)
Record StorageGenerator := mkStorageGen { g_cfg : list config; g_warm : list warmcold }.

(** tosca/world_state.go:73-82: the numbers of the constants *)
Definition status_number (s : storage_status) : Z :=
  match s with
  | S_ASSIGNED => 0 | S_ADDED => 1 | S_DELETED => 2 | S_MODIFIED => 3 | S_DELETED_ADDED => 4
  | S_MODIFIED_DELETED => 5 | S_DELETED_RESTORED => 6 | S_ADDED_DELETED => 7 | S_MODIFIED_RESTORED => 8
  end.
(** storage.go:37-45 *)
Definition config_Less (a b : config) : bool :=
  if negb (status_number (c_config a) =? status_number (c_config b)) then status_number (c_config a) <? status_number (c_config b)
  else if negb (c_key a =? c_key b) then c_key a <? c_key b
  else c_new a <? c_new b.
(** storage.go:57-61 *)
Definition NewValueMustBeZero (s : storage_status) : bool :=
  match s with S_ADDED_DELETED | S_DELETED | S_MODIFIED_DELETED => true | _ => false end.
(** storage.go:63-70 *)
Definition NewValueMustNotBeZero (s : storage_status) : bool :=
  match s with S_ASSIGNED | S_ADDED | S_DELETED_RESTORED | S_DELETED_ADDED | S_MODIFIED | S_MODIFIED_RESTORED => true | _ => false end.
(** storage.go:77-82 *)
Definition warm_Less (a b : warmcold) : bool :=
  if negb (wc_key a =? wc_key b) then wc_key a <? wc_key b else negb (Bool.eqb (wc_warm a) (wc_warm b)) && wc_warm a.

(** Go's [==] on the two structs *)
Definition config_eq (a b : config) : bool := (status_number (c_config a) =? status_number (c_config b)) && (c_key a =? c_key b) && (c_new a =? c_new b).
Definition warm_eq (a b : warmcold) : bool := (wc_key a =? wc_key b) && Bool.eqb (wc_warm a) (wc_warm b).

(** storage.go:84-86 *)
Definition NewStorageGenerator : StorageGenerator := mkStorageGen [] [].
(** storage.go:88-93 *)
Definition BindConfiguration (s : storage_status) (key new : Z) (g : StorageGenerator) : StorageGenerator :=
  let v := mkConfig s key new in if existsb (fun c => config_eq c v) (g_cfg g) then g else mkStorageGen (g_cfg g ++ [v]) (g_warm g).
(** storage.go:95-100 and 102-107 *)
Definition bind_warmcold (key : Z) (warm : bool) (g : StorageGenerator) : StorageGenerator :=
  let v := mkWarm key warm in if existsb (fun c => warm_eq c v) (g_warm g) then g else mkStorageGen (g_cfg g) (g_warm g ++ [v]).
Definition BindWarm (key : Z) : StorageGenerator -> StorageGenerator := bind_warmcold key true.
Definition BindCold (key : Z) : StorageGenerator -> StorageGenerator := bind_warmcold key false.

(** sort.Slice (Go library): the sorted list; the entries are pairwise different and
    [Less] is a total order, so that the result does not depend on the algorithm. *)
Fixpoint insert {A} (less : A -> A -> bool) (a : A) (l : list A) : list A :=
  match l with [] => [a] | b :: l' => if less b a then b :: insert less a l' else a :: l end.
Definition sort {A} (less : A -> A -> bool) (l : list A) : list A := fold_right (insert less) [] l.
(** The loops over neighbours, storage.go:112-117 and 121-126 *)
Fixpoint neighbours {A} (bad : A -> A -> bool) (l : list A) : bool :=
  match l with a :: ((b :: _) as l') => bad a b || neighbours bad l' | _ => false end.
(** storage.go:114 *)
Definition config_conflict (a b : config) : bool :=
  (c_key a =? c_key b) && (negb (status_number (c_config a) =? status_number (c_config b)) || negb (c_new a =? c_new b)).
(** storage.go:123 *)
Definition warm_conflict (a b : warmcold) : bool := (wc_key a =? wc_key b) && negb (Bool.eqb (wc_warm a) (wc_warm b)).

(** st/storage.go:20-24 (and the builder, 26-28): maps from keys to values *)
Record storage := mkStorage { s_current : Z -> option Z; s_original : Z -> option Z; s_warm : Z -> bool }.
(** st/storage.go:74-76, 97-99, 108-110: reading a missing entry yields zero *)
Definition read (m : Z -> option Z) (k : Z) : Z := match m k with Some v => v | None => 0 end.
(** st/storage.go:41-64: SetCurrent, SetOriginal, SetWarm and IsInOriginal of the builder *)
Definition SetValues (k org cur : Z) (s : storage) : storage := mkStorage (put (s_current s) k cur) (put (s_original s) k org) (s_warm s).
Definition SetWarm (k : Z) (warm : bool) (s : storage) : storage :=
  if warm then mkStorage (s_current s) (s_original s) (fun x => if x =? k then true else s_warm s x) else s.
Definition IsInOriginal (k : Z) (s : storage) : bool := match s_original s k with Some _ => true | None => false end.
Definition empty_storage : storage := mkStorage (fun _ => None) (fun _ => None) (fun _ => false).

(** The state of a running Generate: number of random draws so far, keysInUse, assignment. *)
Record gstate := mkG { drawn : nat; used : list Z; asg : Assignment }.

Section Random.
(** The random numbers drawn, in order: [rnd i] is the result of the [i]-th RandU256 or
    Intn call ([Intn n] being its remainder modulo n). *)
Variable rnd : nat -> Z.
(** The bound of the model on the number of iterations of a retry loop. *)
Variable fuel : nat.

Definition draw (g : gstate) : Z * gstate := (rnd (drawn g), mkG (S (drawn g)) (used g) (asg g)).

(** A retry loop [for { v := RandU256(rnd); if v not excluded { return v } }] *)
Fixpoint retry (n : nat) (excluded : list Z) (g : gstate) : outcome (Z * gstate) :=
  match n with
  | O => Running
  | S n' => let '(v, g1) := draw g in if existsb (Z.eqb v) excluded then retry n' excluded g1 else Generated (v, g1)
  end.
(** storage.go:141-149; transient_storage.go:70-78 *)
Definition getUnusedKey (g : gstate) : outcome (Z * gstate) :=
  gen! ' (k, g1) <- retry fuel (used g) g; Generated (k, mkG (drawn g1) (k :: used g1) (asg g1)).
(** storage.go:151-158 *)
Definition getKey (v : Z) (g : gstate) : outcome (Z * gstate) :=
  match asg g v with
  | Some k => Generated (k, g)
  | None => gen! ' (k, g1) <- getUnusedKey g; Generated (k, mkG (drawn g1) (used g1) (put (asg g1) v k))
  end.
(** storage.go:159-166 *)
Definition randValueButNot (excluded : list Z) (g : gstate) : outcome (Z * gstate) := retry fuel excluded g.

(** storage.go:174-195 *)
Definition pick_new (con : config) (g : gstate) : outcome (Z * gstate) :=
  match asg g (c_new con) with
  | Some v =>
    if ((v =? 0) && NewValueMustNotBeZero (c_config con)) || (negb (v =? 0) && NewValueMustBeZero (c_config con)) then ErrUnsatisfiable
    else Generated (v, g)
  | None =>
    gen! ' (v, g1) <- (if NewValueMustBeZero (c_config con) then Generated (0, g)
                       else if NewValueMustNotBeZero (c_config con) then randValueButNot [0] g
                       else let '(n, g2) := draw g in if n mod 5 =? 0 then Generated (0, g2) else Generated (draw g2));
    Generated (v, mkG (drawn g1) (used g1) (put (asg g1) (c_new con) v))
  end.

(** storage.go:197-224: the original and the current value *)
Definition pick_values (s : storage_status) (new : Z) (g : gstate) : outcome (Z * Z * gstate) :=
  match s with
  | S_ADDED => Generated (0, 0, g)
  | S_ADDED_DELETED => gen! ' (c, g1) <- randValueButNot [0] g; Generated (0, c, g1)
  | S_DELETED_RESTORED => Generated (new, 0, g)
  | S_DELETED_ADDED => gen! ' (o, g1) <- randValueButNot [0; new] g; Generated (o, 0, g1)
  | S_DELETED => gen! ' (o, g1) <- randValueButNot [0] g; Generated (o, o, g1)
  | S_MODIFIED => gen! ' (o, g1) <- randValueButNot [0; new] g; Generated (o, o, g1)
  | S_MODIFIED_DELETED => gen! ' (o, g1) <- randValueButNot [0] g; gen! ' (c, g2) <- randValueButNot [0; o] g1; Generated (o, c, g2)
  | S_MODIFIED_RESTORED => gen! ' (c, g1) <- randValueButNot [0; new] g; Generated (new, c, g1)
  | S_ASSIGNED => gen! ' (o, g1) <- randValueButNot [0; new] g; gen! ' (c, g2) <- randValueButNot [0; o; new] g1; Generated (o, c, g2)
  end.

(** storage.go:170-228 *)
Fixpoint configs (l : list config) (s : storage) (g : gstate) : outcome (storage * gstate) :=
  match l with
  | [] => Generated (s, g)
  | con :: l' =>
    gen! ' (key, g1) <- getKey (c_key con) g;
    gen! ' (new, g2) <- pick_new con g1;
    gen! ' (org, cur, g3) <- pick_values (c_config con) new g2;
    configs l' (SetValues key org cur s) g3
  end.

(** storage.go:230-238 *)
Fixpoint warms (l : list warmcold) (s : storage) (g : gstate) : outcome (storage * gstate) :=
  match l with
  | [] => Generated (s, g)
  | con :: l' =>
    gen! ' (key, g1) <- getKey (wc_key con) g;
    let '(s1, g2) := if IsInOriginal key s then (s, g1)
                     else let '(o, ga) := draw g1 in let '(c, gb) := draw ga in (SetValues key o c s, gb) in
    warms l' (SetWarm key (wc_warm con) s1) g2
  end.

(** storage.go:241-246: the loop *)
Fixpoint extras (n : nat) (s : storage) (g : gstate) : outcome (storage * gstate) :=
  match n with
  | O => Generated (s, g)
  | S n' =>
    gen! ' (key, g1) <- getUnusedKey g;
    let '(o, g2) := draw g1 in let '(c, g3) := draw g2 in let '(w, g4) := draw g3 in
    extras n' (SetWarm key (w mod 2 =? 1) (SetValues key o c s)) g4
  end.

(** storage.go:128-140: keysInUse before the first draw *)
Definition bound_keys (a : Assignment) (keys : list Z) : list Z := flat_map (fun x => match a x with Some k => [k] | None => [] end) keys.

(** storage.go:109-249: the storage and the updated assignment *)
Definition StorageGenerate (a : Assignment) (g : StorageGenerator) : outcome (storage * Assignment) :=
  let cfg := sort config_Less (g_cfg g) in
  if neighbours config_conflict cfg then ErrUnsatisfiable
  else let wcs := sort warm_Less (g_warm g) in
  if neighbours warm_conflict wcs then ErrUnsatisfiable
  else
    let g0 := mkG 0 (bound_keys a (map c_key cfg) ++ bound_keys a (map wc_key wcs)) a in
    gen! ' (s1, g1) <- configs cfg empty_storage g0;
    gen! ' (s2, g2) <- warms wcs s1 g1;
    let '(n, g3) := draw g2 in
    gen! ' (s3, g4) <- extras (Z.to_nat (n mod 5)) s2 g3;
    Generated (s3, asg g4).

(** *** transient_storage.go *)

(** transient_storage.go:82-106: the loop over the constraints, in the order of the map
    iteration; [all] is the whole map. *)
Fixpoint transients (all l : list (Z * bool)) (s : Z -> option Z) (g : gstate) : outcome ((Z -> option Z) * gstate) :=
  match l with
  | [] => Generated (s, g)
  | (variable, nonZero) :: l' =>
    if match asg g variable with Some _ => existsb (fun o => (read (asg g) variable =? read (asg g) (fst o)) && negb (Bool.eqb nonZero (snd o))) all | None => false end
    then ErrUnsatisfiable
    else
      gen! ' (key, g1) <- match asg g variable with Some k => Generated (k, mkG (drawn g) (k :: used g) (asg g)) | None => getUnusedKey g end;
      let '(s1, g2) := if nonZero then let '(v, gx) := draw g1 in (put s key v, gx) else (s, g1) in
      transients all l' s1 (mkG (drawn g2) (used g2) (put (asg g2) variable key))
  end.

(** transient_storage.go:109-113: the loop, with its condition evaluated in each iteration *)
Fixpoint transient_extras (n : nat) (i : Z) (s : Z -> option Z) (g : gstate) : outcome (Z -> option Z) :=
  match n with
  | O => Running
  | S n' =>
    let '(m, g0) := draw g in
    if i <? m mod 10 then
      gen! ' (key, g1) <- getUnusedKey g0;
      let '(v, g2) := draw g1 in
      transient_extras n' (i + 1) (put s key v) g2
    else Generated s
  end.

End Random.

(** transient_storage.go:25-28; the map nonZeroConstraints as the list of its entries *)
Record TransientGenerator := mkTransient { t_constraints : list (Z * bool); t_unsat : bool }.
(** transient_storage.go:30-32 *)
Definition NewTransientGenerator : TransientGenerator := mkTransient [] false.
(** A Go map lookup *)
Definition lookup (l : list (Z * bool)) (k : Z) : option bool :=
  match find (fun p => fst p =? k) l with Some p => Some (snd p) | None => None end.
(** transient_storage.go:34-44 ([nonZero] = true) and 46-56 ([nonZero] = false) *)
Definition bind_transient (nonZero : bool) (key : Z) (t : TransientGenerator) : TransientGenerator :=
  match lookup (t_constraints t) key with
  | Some v => if Bool.eqb v nonZero then t else mkTransient (t_constraints t) true
  | None => mkTransient (t_constraints t ++ [(key, nonZero)]) (t_unsat t)
  end.
Definition BindToNonZero : Z -> TransientGenerator -> TransientGenerator := bind_transient true.
Definition BindToZero : Z -> TransientGenerator -> TransientGenerator := bind_transient false.

(** transient_storage.go:58-116; [order] is the order in which the Go runtime iterates over
    the map of constraints (any permutation of its entries). *)
Definition TransientGenerate (rnd : nat -> Z) (fuel : nat) (order : list (Z * bool)) (a : Assignment) (t : TransientGenerator) : outcome ((Z -> option Z) * Assignment) :=
  if t_unsat t then ErrUnsatisfiable
  else
    let g0 := mkG 0 (bound_keys a (map fst order)) a in
    gen! ' (s1, g1) <- transients rnd fuel order order (fun _ => None) g0;
    gen! s2 <- transient_extras rnd fuel fuel 0 s1 g1;
    Generated (s2, asg g1).
