(** The conformance testing targets: states of go/ct/st, the adapters go/interpreter/lfvm/ct.go, go/interpreter/evmzero/ct.go and
    go/interpreter/evmc/evmc_steppable_interpreter.go, and the comparison of states.  Run time panics of Go are [Undef]. *)
From Verif Require Import Base Host SpecVm Vm Client GoAdapter LfvmCode Lfvm.
From Coq Require Import ZArith List Bool.
Import ListNotations.
Open Scope Z_scope.

(** go/ct/st/state.go:54-62 StatusCode *)
Inductive ct_status : Set := CtRunning | CtStopped | CtReverted | CtFailed.
(** go/ct/st/state.go:138-162 State.  The stack has its top at the end (stack.go:83-85).  Storage, TransientStorage, Accounts, Logs,
    CallJournal, HasSelfDestructed, SelfDestructedJournal and RecentBlockHashes, which steps see through the run context only
    (go/ct/utils/adapter.go:70-233), are [ct_world]; BlockContext and TransactionContext are [tx] below, they never change. *)
Record ct_state (W : Type) : Type := mkCt {
  ct_stat : ct_status; ct_revision : Z; ct_readonly : bool; ct_pc : Z; ct_gas : Z; ct_refund : Z; ct_code : list Z; ct_stack : list Z;
  ct_mem : list Z; ct_self : Z; ct_caller : Z; ct_value : Z; ct_calldata : list Z; ct_last : list Z; ct_ret : list Z; ct_world : W;
}.
Arguments mkCt {W}. Arguments ct_stat {W}. Arguments ct_revision {W}. Arguments ct_readonly {W}. Arguments ct_pc {W}. Arguments ct_gas {W}.
Arguments ct_refund {W}. Arguments ct_code {W}. Arguments ct_stack {W}. Arguments ct_mem {W}. Arguments ct_self {W}. Arguments ct_caller {W}.
Arguments ct_value {W}. Arguments ct_calldata {W}. Arguments ct_last {W}. Arguments ct_ret {W}. Arguments ct_world {W}.

(** a step changes these components only *)
Definition ct_update {W} (s : ct_state W) (st : ct_status) (pc gas refund : Z) (stack mem last ret : list Z) (w : W) : ct_state W :=
  mkCt st (ct_revision s) (ct_readonly s) pc gas refund (ct_code s) stack mem (ct_self s) (ct_caller s) (ct_value s) (ct_calldata s) last ret w.

(** go/ct/utils/adapter.go:26-68 ToVmParameters; [hash] is the hash of the code *)
Definition ToVmParameters {W} (hash : list Z -> Z) (s : ct_state W) : parameters :=
  mkParams (ct_revision s) (ct_readonly s) 0 (ct_gas s) (ct_self s) (ct_caller s) (ct_calldata s) (ct_value s) (Some (hash (ct_code s))) (ct_code s).

(** ** go/interpreter/lfvm/converter.go:155-187 convertWithObserver; [o]: the calls of the observer so far, latest first *)
Fixpoint observe_loop (fuel : nat) (super : bool) (size : Z) (rest : list Z) (i : Z) (b : builder) (o : list (Z * Z)) : res (lcode * list (Z * Z)) :=
  match rest with
  | [] => Ok (toCode b, o)
  | byte :: _ =>
    match fuel with
    | O => NoFuel
    | S fuel =>
      if byte =? 0x5B then
        do! b <- (if b_len b <? i then appendOp b L_JUMP_TO (u16 i) else Ok b);
        do! b <- padNoOpsUntil b i;
        do! b <- appendCode b 0x5B;
        observe_loop fuel super size (skipn 1 rest) (i + 1) b ((i, i) :: o)
      else
        let o := (i, b_len b) :: o in
        do! '(b, inc) <- appendInstructions super b i rest size;
        observe_loop fuel super size (skipn (Z.to_nat (inc + 1)) rest) (i + inc + 1) b o
    end
  end.
Definition convertWithObserver (super : bool) (code : list Z) : res (lcode * list (Z * Z)) :=
  observe_loop (length code) super (zlen code) code 0 (mkB [] 0 (zlen code)) [].

(** ** go/interpreter/lfvm/ct.go *)
(** an assignment to an element of a slice *)
Definition assign (l : list Z) (i v : Z) : res (list Z) :=
  if (0 <=? i) && (i <? zlen l) then Ok (list_upd l (Z.to_nat i) v) else Undef UB_target_oob.
(** 118-122 *)
Record pcMap : Type := mkPcMap { evmToLfvm : list Z; lfvmToEvm : list Z }.
(** 133-136: the calls of the observer, in order *)
Fixpoint record (os : list (Z * Z)) (m : pcMap) : res pcMap :=
  match os with
  | [] => Ok m
  | (evm, lfvm) :: os =>
    do! e <- assign (evmToLfvm m) evm (u16 lfvm);
    do! l <- assign (lfvmToEvm m) lfvm (u16 evm);
    record os (mkPcMap e l)
  end.
(** 150-156 *)
Fixpoint fixJumps (rest : lcode) (i : Z) (l : list Z) : res (list Z) :=
  match rest with
  | [] => Ok l
  | (op, arg) :: rest => do! l <- (if op =? L_JUMP_TO then assign l i arg else Ok l); fixJumps rest (i + 1) l
  end.
(** 124-162 genPcMap *)
Definition genPcMap (code : list Z) : res pcMap :=
  let n := zlen code in
  do! '(lc, o) <- convertWithObserver false code;
  do! m <- record (rev o) (mkPcMap (zeros (n + 1)) (zeros (n + 1)));
  do! e <- assign (evmToLfvm m) n (u16 (zlen lc));
  let l := lfvmToEvm m in
  let l := if zlen l <? zlen lc + 1 then l ++ zeros (zlen lc + 1 - zlen l) else l in
  do! l <- assign l (zlen lc) (u16 n);
  do! l <- fixJumps lc 0 l;
  Ok (mkPcMap e l).

(** 164-177 *)
Definition convertLfvmStatus (st : option lstatus) : ct_status :=
  match st with
  | None => CtRunning
  | Some StReturned | Some StStopped | Some StSelfDestructed => CtStopped
  | Some StReverted => CtReverted
  end.
(** 180-187: element by element, from the bottom; the stack of the interpreter has room for 1024 *)
Definition convertCtStack (stack : list Z) : res (list Z) :=
  if 1024 <? zlen stack then Undef UB_stack_oob else Ok (fold_left (fun acc v => v :: acc) stack []).
(** 189-196 *)
Definition convertLfvmStack (stack : list Z) : list Z := rev stack.
(** 198-206 *)
Definition convertCtMemory (mem : list Z) : list Z * Z :=
  let words := sizeInWords (zlen mem) in
  (mem ++ zeros (words * 32 - zlen mem), words * words / 512 + 3 * words).

Section Ct.
Context {W : Type}.
Variable rc : run_context W.       (* the run context that exposes the state, go/ct/utils/adapter.go *)
Variable tx : tx_context.
Variable Call : W -> go_kind -> call_params -> option call_result * W.
Variable keccak : list Z -> Z.
Variable hash : list Z -> Z.

(** 79-83: execute(ctxt, true) while running, at most n times *)
Fixpoint ct_rounds (p : parameters) (lc : lcode) (n : nat) (c : ctx W) : res (oc W) :=
  match n with
  | O => Ok (Cont c)
  | S n => match lstep rc tx Call keccak p lc c with Ok (Cont c) => ct_rounds p lc n c | r => r end
  end.
(** 41-103 StepN, without the caches for converted codes and position maps, which return what would be computed (C76); the target
    uses no super instructions (NewConformanceTestingTarget, 23-29).  The second component is the error. *)
Definition LfvmStepN (s : ct_state W) (numSteps : Z) : res (ct_state W * option go_error) :=
  let p := ToVmParameters hash s in
  if 5 <? p_revision p then Ok (s, Some ErrUnsupportedRevision)
  else match ct_stat s with
  | CtRunning =>
    do! lc <- convert false (p_code p);
    do! m <- genPcMap (p_code p);
    do! pc <- match znth (evmToLfvm m) (ct_pc s) with Some pc => Ok pc | None => Undef UB_target_oob end;
    do! stack <- convertCtStack (ct_stack s);
    let '(store, cost) := convertCtMemory (ct_mem s) in
    do! o <- ct_rounds p lc (Z.to_nat numSteps) (mkCtx pc (p_gas p) (ct_refund s) stack store cost (ct_last s) (ct_world s));
    let finish (st : ct_status) (pc : Z) (c : ctx W) (ret : list Z) :=
      ct_update s st pc (c_gas c) (c_refund c) (convertLfvmStack (c_stack c)) (c_store c) (c_ret c) ret (c_world c) in
    match o with
    | Cont c =>
      do! pc <- match znth (lfvmToEvm m) (c_pc c) with Some pc => Ok pc | None => Undef UB_target_oob end;
      Ok (finish CtRunning pc c (ct_ret s), None)
    | Ends st c =>
      let ret := match st with StReturned | StReverted => c_ret c | _ => ct_ret s end in
      Ok (finish (convertLfvmStatus (Some st)) (ct_pc s) c ret, None)
    | Err c => Ok (finish CtFailed (ct_pc s) c (ct_ret s), None)
    end
  | _ => Ok (s, None)
  end.
End Ct.

(** ** go/interpreter/evmc/evmc_steppable_interpreter.go *)
(** 129-143 convertEvmcStatusToCtStatus *)
Definition convertEvmcStatus (st : step_status) : option ct_status :=
  match st with
  | STEP_RUNNING => Some CtRunning
  | STEP_STOPPED | STEP_RETURNED => Some CtStopped
  | STEP_REVERTED => Some CtReverted
  | STEP_FAILED => Some CtFailed
  | STEP_OTHER => None
  end.
Section Steppable.
Context {W : Type}.
Variable g : setting W.
Variable hash : list Z -> Z.
(** 38-112 StepN behind go/interpreter/evmzero/ct.go:41-52; 145-177: stack and memory are copied unchanged (the byte strings of the
    interface are big endian words, bottom first) *)
Definition EvmzeroStepN (v : vm) (s : ct_state W) (numSteps : Z) : res (ct_state W * option go_error * vm) :=
  let p := ToVmParameters hash s in
  if 5 <? p_revision p then Ok (s, Some ErrUnsupportedRevision, v)
  else match ct_stat s with
  | CtRunning =>
    match toEvmcRevision (p_revision p) with
    | None => Ok (s, Some ErrUnsupportedRevision, v)
    | Some rv =>
      do! '(so, w, v) <- StepN g v (ct_world s) rv (p_code p) (message_of p) (mkIn STEP_RUNNING (ct_pc s) (ct_refund s) (ct_stack s) (ct_mem s) (ct_last s) numSteps);
      match convertEvmcStatus (so_step so) with
      | None => Ok (s, Some (ErrUnexpected (so_status so)), v)
      | Some st =>
        let ret := match so_step so with STEP_RETURNED | STEP_REVERTED => so_output so | _ => ct_ret s end in
        Ok (ct_update s st (u16 (so_pc so)) (so_gas so) (so_refund so) (so_stack so) (so_mem so) (so_last so) ret w, None, v)
      end
    end
  | _ => Ok (s, None, v)
  end.
End Steppable.

(** ** go/ct/st/state.go:220-271 State.Eq; [weq]: the comparisons of the components that make up the world *)
Definition status_eqb (a b : ct_status) : bool :=
  match a, b with CtRunning, CtRunning | CtStopped, CtStopped | CtReverted, CtReverted | CtFailed, CtFailed => true | _, _ => false end.
Definition list_eqb (a b : list Z) : bool := if list_eq_dec Z.eq_dec a b then true else false.
Definition StateEq {W} (weq : W -> W -> bool) (a b : ct_state W) : bool :=
  if negb (status_eqb (ct_stat a) (ct_stat b)) then false
  else if status_eqb (ct_stat a) CtFailed && status_eqb (ct_stat b) CtFailed then true
  else
    let equivalent :=
      list_eqb (ct_code a) (ct_code b) && (ct_revision a =? ct_revision b) && eqb (ct_readonly a) (ct_readonly b) && (ct_gas a =? ct_gas b) &&
      (ct_refund a =? ct_refund b) && (ct_self a =? ct_self b) && (ct_caller a =? ct_caller b) && (ct_value a =? ct_value b) &&
      list_eqb (ct_calldata a) (ct_calldata b) && weq (ct_world a) (ct_world b) in
    if negb (status_eqb (ct_stat a) CtRunning) then equivalent && list_eqb (ct_ret a) (ct_ret b)
    else
      let size := u16 (zlen (ct_code a)) in
      let equivalentPc := (ct_pc a =? ct_pc b) || ((size <=? ct_pc a) && (size <=? ct_pc b)) in
      equivalent && equivalentPc && list_eqb (ct_stack a) (ct_stack b) && list_eqb (ct_mem a) (ct_mem b) && list_eqb (ct_last a) (ct_last b).
