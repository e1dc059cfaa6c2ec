(** The reference for complete executions: the result of running a message, with the nested
    executions that the host performs on behalf of calls and creations run by the same reference. *)
From Verif Require Import Base Host SpecEvm SpecTrace.

(** ** Valid jump destinations, decided by walking over the instructions *)
Fixpoint walk (fuel : nat) (code : list Z) (p d : Z) : bool :=
  match fuel with
  | O => false
  | S fuel => if p =? d then true else if p <? d then walk fuel code (p + 1 + push_len (code_at code p)) d else false
  end.
Definition is_dest (code : list Z) (d : Z) : bool :=
  (0 <=? d) && (d <? zlen code) && (code_at code d =? 0x5B) && walk (S (length code)) code 0 d.

(** ** What a run reports to its caller *)
Definition failure_status (e : failure) : status_code :=
  match e with
  | OutOfGas => EVMC_OUT_OF_GAS
  | StackUnderflow => EVMC_STACK_UNDERFLOW
  | StackOverflow => EVMC_STACK_OVERFLOW
  | BadJump => EVMC_BAD_JUMP_DESTINATION
  | InvalidInstruction => EVMC_INVALID_INSTRUCTION
  | UndefinedInstruction => EVMC_UNDEFINED_INSTRUCTION
  | StaticViolation => EVMC_STATIC_MODE_VIOLATION
  | ReturnDataOutOfBounds => EVMC_INVALID_MEMORY_ACCESS
  | CallDepth => EVMC_CALL_DEPTH_EXCEEDED
  | CreateDepth | InitCodeTooLarge => EVMC_FAILURE
  end.
Definition halt_status (h : halt) : status_code :=
  match h with Stopped | Returned => EVMC_SUCCESS | Reverted => EVMC_REVERT end.

Section SpecVm.
Context {W : Type}.
Notation frame := (frame W).
Notation outcome := (outcome W).

(** a failing run has used up its gas and has no output *)
Definition result_of (o : outcome) : cresult * W :=
  match o with
  | Halt h data f => (mkRes (halt_status h) (f_gas f) (f_refund f) data 0, f_world f)
  | Fail e f => (mkRes (failure_status e) 0 (f_refund f) [] 0, f_world f)
  | Next f => (mkRes EVMC_FAILURE 0 0 [] 0, f_world f)        (* unfinished: does not occur *)
  end.

(** ** Hosts that run nested messages on the VM *)
(** How a host deals with one call: it finishes with a result and a new host state, or has the VM
    execute a message (with some code, in some host state) and continues with what that returned. *)
Inductive prog : Type :=
| Done (r : cresult) (w : W)
| Enter (w : W) (rev : revision) (code : list Z) (m : message) (k : cresult -> W -> prog).

Definition executor : Type := W -> revision -> list Z -> message -> cresult * W.
Fixpoint play (ex : executor) (p : prog) : cresult * W :=
  match p with
  | Done r w => (r, w)
  | Enter w rev code m k => let '(r, w') := ex w rev code m in play ex (k r w')
  end.

Variable H : host W.
Variable keccak : list Z -> Z.
Variable handler : W -> message -> prog.

(** executing a message, with nested calls answered by [call]; a run has at most gas + 1 instructions *)
Definition evaluate (call : W -> message -> cresult * W) : executor := fun w rev code m =>
  result_of (run_for H call keccak m rev code (is_dest code) (S (Z.to_nat (msg_gas m))) (initial m w)).

(** executing a message whose calls nest less than [n] levels deep *)
Fixpoint eval (n : nat) : executor :=
  match n with
  | O => fun w _ _ _ => (mkRes EVMC_FAILURE 0 0 [] 0, w)      (* too deep: does not occur *)
  | S n => evaluate (fun w m => play (eval n) (handler w m))
  end.

(** ** What is asked of clients and hosts *)
(** the code that a code hash stands for: messages with the same (non-zero) hash have the same code *)
Variable code_of : Z -> list Z.
Record exec_ok (code : list Z) (m : message) : Prop := mkExecOk {
  eok_msg : msg_ok m;
  eok_depth : msg_depth m <= 1024;
  eok_code : Forall is_byte code;
  eok_code_len : zlen code <= 2 ^ 32;
  eok_hash : forall h, msg_code_hash m = Some h -> h <> 0 -> code = code_of h;
}.
(** dealing with the call [m]: nested executions happen at the depth of [m], with non-negative gas; if
    they report a result within the gas contract, so does the host *)
Inductive prog_ok (m : message) : prog -> Prop :=
| ok_done : forall r w, call_ok m r -> prog_ok m (Done r w)
| ok_enter : forall w rev code m' k, exec_ok code m' -> msg_depth m' = msg_depth m -> 0 <= msg_gas m' ->
    (forall r w, call_ok m' r -> prog_ok m (k r w)) -> prog_ok m (Enter w rev code m' k).
Definition handler_ok : Prop := forall w m, msg_ok m -> 0 <= msg_gas m -> 0 < msg_depth m <= 1025 -> prog_ok m (handler w m).

(** ** What happens during such a run *)
(** an instruction about to be executed: code byte, gas, top of the stack *)
Record event : Type := mkEvent { ev_byte : Z; ev_gas : Z; ev_top : option Z }.
Definition event_of (code : list Z) (f : frame) : event :=
  mkEvent (code_at code (f_pc f)) (f_gas f) (nth_error (f_stack f) 0).

(** a run: the instructions dispatched, each with the runs nested in it *)
Inductive tree : Type := Tree (m : message) (body : list (event * list tree)).

(** the runs made while dealing with one call; [tr] gives the tree of a single execution *)
Fixpoint play_trees (ex : executor) (tr : W -> revision -> list Z -> message -> tree) (p : prog) : list tree :=
  match p with
  | Done _ _ => []
  | Enter w rev code m k => tr w rev code m :: let '(r, w') := ex w rev code m in play_trees ex tr (k r w')
  end.

Section Body.
Variable call : W -> message -> cresult * W.
Variable nested : W -> message -> list tree.
Variables (rev : revision) (code : list Z) (m : message).
(** the first [n] dispatches from [f] on *)
Fixpoint tree_body (n : nat) (f : frame) : list (event * list tree) :=
  match n with
  | O => []
  | S n => (event_of code f, match asks H m rev code f with Some (w, m') => nested w m' | None => [] end) ::
           match dispatch H call keccak m rev code (is_dest code) f with Next f' => tree_body n f' | _ => [] end
  end.
End Body.

Fixpoint tree_of (n : nat) (w : W) (rev : revision) (code : list Z) (m : message) : tree :=
  match n with
  | O => Tree m []
  | S n =>
    Tree m (tree_body (fun w m => play (eval n) (handler w m))
              (fun w m => play_trees (eval n) (tree_of n) (handler w m)) rev code m (S (Z.to_nat (msg_gas m))) (initial m w))
  end.
End SpecVm.
Arguments Done {W}. Arguments Enter {W}.
Arguments prog : clear implicits. Arguments executor : clear implicits.

(** all instructions of a run and of the runs nested in it, in the order in which they are begun *)
Fixpoint flat (t : tree) : list event :=
  match t with Tree _ body => flat_map (fun i : event * list tree => let (e, ts) := i in e :: flat_map flat ts) body end.
