(** What the logger and the profilers should report about an execution. *)
From Verif Require Import Base Host SpecEvm SpecTrace SpecVm Opcodes Profiler Vm Client.

(** bytes without an instruction are reported as the invalid instruction *)
Definition shown (b : Z) : Z := match instruction b with Some _ => b | None => 0xFE end.

(** the tree of runs of an execution, according to the reference *)
Definition runs_of {W} (g : setting W) : W -> revision -> list Z -> message -> tree :=
  tree_of (g_host g) (g_keccak g) (g_handler g) (S levels).

(** the line for an instruction: op code, gas before it, top of the stack before it *)
Definition shows_line (l : log_line) (e : event) : Prop :=
  opcode_value (ln_op l) = shown (ev_byte e) /\ ln_gas l = ev_gas e /\ ln_top l = ev_top e.

(** the instructions a profiler looks at: all, or those that concern the host *)
Definition host_instructions : list Z :=
  [0x31; 0x32; 0x3A; 0x3B; 0x3C; 0x3F; 0x40; 0x41; 0x42; 0x43; 0x44; 0x45; 0x46; 0x47; 0x48; 0x49; 0x4A;
   0x54; 0x55; 0x5C; 0x5D; 0xA0; 0xA1; 0xA2; 0xA3; 0xA4; 0xF0; 0xF1; 0xF2; 0xF4; 0xF5; 0xFA; 0xFF].
Definition profiled (mode : pmode) (b : Z) : bool :=
  match mode with PFull => true | PExternal => existsb (Z.eqb b) host_instructions end.

(** number of profiled executions of the instruction [b] during a run *)
Definition executions (mode : pmode) (b : Z) (t : tree) : Z :=
  zlen (filter (fun e => profiled mode (shown (ev_byte e)) && (shown (ev_byte e) =? b)) (flat t)).

(** ** Clock readings *)
(** a run is preceded and followed by a reading of the clock, and so is each of its instructions; [clock n] is the
    [n]-th reading; the result has all instructions (also those of nested runs) with the time they took, without the
    time of the last run nested in them *)
Section Times.
Variable clock : nat -> Z.
(** instruction with its own duration *)
Definition timing : Type := (Z * Z)%type.
Section List.
Context {A : Type}.
Variable f : A -> nat -> list timing * Z * nat.
(** several runs, one after the other: their timings, the duration of the last one, the next reading *)
Fixpoint in_turn (l : list A) (n : nat) (last : Z) : list timing * Z * nat :=
  match l with
  | [] => ([], last, n)
  | a :: l => let '(ts, d, n) := f a n in let '(ts', d, n) := in_turn l n d in (ts ++ ts', d, n)
  end.
End List.
(** timings, duration and next reading of a run begun at the [n]-th reading *)
Fixpoint timings (t : tree) (n : nat) : list timing * Z * nat :=
  match t with
  | Tree _ body =>
    let '(ts, _, n') := in_turn (fun (i : event * list tree) n =>
      let (e, runs) := i in
      let '(ts, d, n') := in_turn timings runs (S n) 0 in
      ((shown (ev_byte e), clock n' - clock n - d) :: ts, 0, S n')) body (S n) 0 in
    (ts, clock n' - clock n, S n')
  end.
Definition total (l : list Z) : Z := fold_right Z.add 0 l.
(** time spent in the instruction [b] during a run begun at the [n]-th reading *)
Definition time_in (mode : pmode) (b : Z) (t : tree) (n : nat) : Z :=
  total (map snd (filter (fun i : timing => profiled mode (fst i) && (fst i =? b)) (fst (fst (timings t n))))).
Definition duration (t : tree) (n : nat) : Z := snd (fst (timings t n)).
Definition readings (t : tree) (n : nat) : nat := snd (timings t n).
End Times.

(** ** Sessions *)
(** the messages are executed one after the other by the same VM, each in some state of the host *)
Fixpoint session {W} (g : setting W) (v : vm) (l : list (W * revision * list Z * message)) : res vm :=
  match l with
  | [] => Ok v
  | (w, rv, code, m) :: l => do! '(_, _, v) <- Execute g v w rv code m; session g v l
  end.
(** the switches with which the profiler of the given mode observes executions *)
Definition profiles (mode : pmode) (v : vm) : Prop :=
  v_logging v = false /\ match mode with PFull => v_profiling v = true | PExternal => v_profiling v = false /\ v_profext v = true end.
(** the clock shows 64-bit values, except the reserved largest one *)
Definition clock_range (clock : nat -> Z) : Prop := forall n, 0 <= clock n < 2 ^ 64 - 1.
Definition clock_monotone (clock : nat -> Z) : Prop := forall i j, (i <= j)%nat -> clock i <= clock j.
