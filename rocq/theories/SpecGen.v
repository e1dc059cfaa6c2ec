(** Specification of the generators of stacks and storages: the requests a user makes
    through the API, and when a generated value fulfils them. *)
From Verif Require Import Base Host GoStorage CtSolve CtGen.

(** *** Stacks *)
Inductive stack_request :=
| MinSize (n : Z) | MaxSize (n : Z) | Size (n : Z)
| Holds (pos value : Z)          (* SetValue *)
| HoldsVar (pos variable : Z)    (* BindValue *)
| Ran (a : Assignment).          (* an earlier call of Generate on the same generator *)

Definition stack_request_call (g : StackGenerator) (q : stack_request) : StackGenerator :=
  match q with
  | MinSize n => AddMinSize n g | MaxSize n => AddMaxSize n g | Size n => SetSize n g
  | Holds p v => SetValue p v g | HoldsVar p x => BindValue p x g | Ran a => after_generate a g
  end.
Definition stack_generator (qs : list stack_request) : StackGenerator := fold_left stack_request_call qs NewStackGenerator.

(** Sizes and positions are Go ints; the largest int is no position (finding: it panics). *)
Definition stack_request_ok (q : stack_request) : Prop :=
  match q with
  | MinSize n | MaxSize n | Size n => - 2 ^ 63 <= n < 2 ^ 63
  | Holds p _ | HoldsVar p _ => - 2 ^ 63 <= p < 2 ^ 63 - 1
  | Ran _ => True
  end.

(** A stack (top first) fulfils a request under an assignment. *)
Definition stack_fulfils (a : Assignment) (l : list Z) (q : stack_request) : Prop :=
  match q with
  | MinSize n => n <= zlen l
  | MaxSize n => zlen l <= n
  | Size n => zlen l = n
  | Holds p v => znth l p = Some v
  | HoldsVar p x => exists v, a x = Some v /\ znth l p = Some v
  | Ran _ => True
  end.
Definition stack_fits (a : Assignment) (qs : list stack_request) (l : list Z) : Prop := zlen l <= 1024 /\ Forall (stack_fulfils a l) qs.

(** One position is described by a variable and by something else. *)
Definition described_twice (qs : list stack_request) : Prop :=
  exists p x, In (HoldsVar p x) qs /\ ((exists v, In (Holds p v) qs) \/ exists y, y <> x /\ In (HoldsVar p y) qs).

(** *** Storages *)
Inductive storage_request :=
| Config (s : storage_status) (key new : Z)     (* BindConfiguration *)
| Warm (key : Z) | Cold (key : Z).

Definition storage_request_call (g : StorageGenerator) (q : storage_request) : StorageGenerator :=
  match q with Config s k v => BindConfiguration s k v g | Warm k => BindWarm k g | Cold k => BindCold k g end.
Definition storage_generator (qs : list storage_request) : StorageGenerator := fold_left storage_request_call qs NewStorageGenerator.

Definition key_of (q : storage_request) : Z := match q with Config _ k _ | Warm k | Cold k => k end.

(** A storage fulfils a request under an assignment: writing the value of the variable
    [new] to the slot of the variable [key] has the status [s]; the slot is warm/cold. *)
Definition storage_fulfils (a : Assignment) (st : storage) (q : storage_request) : Prop :=
  match q with
  | Config s x y => exists k v, a x = Some k /\ a y = Some v /\ GetStorageStatus (read (s_original st) k) (read (s_current st) k) v = s
  | Warm x => exists k, a x = Some k /\ s_warm st k = true
  | Cold x => exists k, a x = Some k /\ s_warm st k = false
  end.

Definition extends (a b : Assignment) : Prop := forall x v, a x = Some v -> b x = Some v.

(** One configuration per key variable. *)
Definition one_config (qs : list storage_request) : Prop :=
  forall s x y s' y', In (Config s x y) qs -> In (Config s' x y') qs -> s = s' /\ y = y'.
(** Different variables with configurations are bound to different slots, and so are
    variables required warm and variables required cold. *)
Definition separate (a : Assignment) (qs : list storage_request) : Prop :=
  (forall s x y s' x' y' k, In (Config s x y) qs -> In (Config s' x' y') qs -> x <> x' -> a x = Some k -> a x' = Some k -> False) /\
  (forall x x' k, In (Warm x) qs -> In (Cold x') qs -> x <> x' -> a x = Some k -> a x' = Some k -> False).
(** An unbound variable for a new value is not a key variable. *)
Definition values_not_keys (a : Assignment) (qs : list storage_request) : Prop :=
  forall s x y q, In (Config s x y) qs -> a y = None -> In q qs -> key_of q <> y.

(** The value [w] of a new-value variable can have the status: for some original and
    current value. The generator does not use zero for StorageAssigned. *)
Definition value_possible (s : storage_status) (w : Z) : Prop :=
  (exists o c, GetStorageStatus o c w = s) /\ (s = S_ASSIGNED -> w <> 0).
(** The requests contradict each other: as far as the generator is concerned, two
    configurations for one key, warm and cold, or no value for a variable. *)
Definition storage_conflict (a : Assignment) (qs : list storage_request) : Prop :=
  (exists s x y s' y', In (Config s x y) qs /\ In (Config s' x y') qs /\ (s, y) <> (s', y')) \/
  (exists x, In (Warm x) qs /\ In (Cold x) qs) \/
  (exists y, (exists s x, In (Config s x y) qs) /\ forall w, (forall u, a y = Some u -> u = w) -> exists s x, In (Config s x y) qs /\ ~ value_possible s w).

(** Random numbers that do not repeat the same few values forever: after any point, each
    list of fewer than 2^64 values is missed by some later number. *)
Definition fair (rnd : nat -> Z) : Prop := forall n l, zlen l < 2 ^ 64 -> exists m, (n <= m)%nat /\ ~ In (rnd m) l.

(** *** Transient storages *)
Inductive transient_request := NonZero (key : Z) | Zero (key : Z).
Definition transient_request_call (t : TransientGenerator) (q : transient_request) : TransientGenerator :=
  match q with NonZero k => BindToNonZero k t | Zero k => BindToZero k t end.
Definition transient_generator (qs : list transient_request) : TransientGenerator := fold_left transient_request_call qs NewTransientGenerator.
Definition transient_fulfils (a : Assignment) (st : Z -> option Z) (q : transient_request) : Prop :=
  match q with
  | NonZero x => exists k, a x = Some k /\ read st k <> 0
  | Zero x => exists k, a x = Some k /\ read st k = 0
  end.
(** No assignment that agrees with [a] admits a transient storage for the requests ... *)
Definition transient_impossible (a : Assignment) (qs : list transient_request) : Prop :=
  forall b st, extends a b -> ~ Forall (transient_fulfils b st) qs.
(** ... or a variable bound to zero and an unbound variable have opposite requests. *)
Definition transient_confused (a : Assignment) (qs : list transient_request) : Prop :=
  exists x y, a x = Some 0 /\ a y = None /\ (In (NonZero x) qs /\ In (Zero y) qs \/ In (Zero x) qs /\ In (NonZero y) qs).
