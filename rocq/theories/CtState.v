(** * go/ct/gen/state.go: the generator of states. Left out:
    Clone, Restore, String; the fields that no request concerns and no other field depends on (memory, call journal, call data, return
    data, recent block hashes, the other fields of the contexts), which are random; go/ct/gen/selfdestruct.go is part of [pick_destructed]. *)
From Verif Require Import Base Host GoStorage CtSolve CtGen CtCodeGen CtContext CtAccounts.
From Coq Require Import ZArith List Bool.
Import ListNotations.
Open Scope Z_scope.

(** st/state.go:49 *)
Definition MaxGasUsedByCt : Z := 500000000000.
(** st/state.go:62-68: Running 0, Stopped 1, Reverted 2, Failed 3 *)
Definition NumStatusCodes : Z := 4.

(** state.go:43-68; hasSelfDestructedGen is the pair of its flags (selfdestruct.go:17-20) *)
Record StateGenerator := mkStateGen {
  gn_status : list Z; gn_readOnly : list bool; gn_pc : list Z; gn_pcVar : list Z; gn_gas : RangeSolver; gn_refund : RangeSolver;
  gn_bindings : list (Z * Z); gn_self : list Z; gn_selfVar : list Z;
  gn_code : CodeGenerator; gn_stack : StackGenerator; gn_storage : StorageGenerator; gn_transient : TransientGenerator;
  gn_accounts : AccountsGenerator; gn_block : BlockGenerator; gn_destructed : bool * bool; gn_tx : TxGenerator }.
(** state.go:71-87 *)
Definition NewStateGenerator : StateGenerator :=
  mkStateGen [] [] [] [] (NewRangeSolver 0 MaxGasUsedByCt) (NewRangeSolver (- MaxGasUsedByCt) MaxGasUsedByCt) [] [] []
    NewCodeGenerator NewStackGenerator NewStorageGenerator NewTransientGenerator NewAccountGenerator NewBlockContextGenerator (false, false) NewTransactionContextGenerator.

(** slices.Contains and append *)
Definition add_new {A} (eqb : A -> A -> bool) (x : A) (l : list A) : list A := if existsb (eqb x) l then l else l ++ [x].
(** state.go:99-105 BindValue *)
Definition StateBindValue (x v : Z) (g : StateGenerator) : StateGenerator :=
  let 'mkStateGen st ro pc pv ga re bi se sv c s so t ac bl d tx := g in
  mkStateGen st ro pc pv ga re (add_new (fun p q => (fst p =? fst q) && (snd p =? snd q)) (x, v) bi) se sv c s so t ac bl d tx.
(** state.go:107-112 SetStatus *)
Definition SetStatus (status : Z) (g : StateGenerator) : StateGenerator :=
  let 'mkStateGen st ro pc pv ga re bi se sv c s so t ac bl d tx := g in mkStateGen (add_new Z.eqb status st) ro pc pv ga re bi se sv c s so t ac bl d tx.
(** state.go:123-128 SetReadOnly *)
Definition SetReadOnly (b : bool) (g : StateGenerator) : StateGenerator :=
  let 'mkStateGen st ro pc pv ga re bi se sv c s so t ac bl d tx := g in mkStateGen st (add_new Bool.eqb b ro) pc pv ga re bi se sv c s so t ac bl d tx.
(** state.go:130-135 SetPc *)
Definition SetPc (p : Z) (g : StateGenerator) : StateGenerator :=
  let 'mkStateGen st ro pc pv ga re bi se sv c s so t ac bl d tx := g in mkStateGen st ro (add_new Z.eqb p pc) pv ga re bi se sv c s so t ac bl d tx.
(** state.go:137-143 BindPc *)
Definition BindPc (x : Z) (g : StateGenerator) : StateGenerator :=
  let 'mkStateGen st ro pc pv ga re bi se sv c s so t ac bl d tx := g in mkStateGen st ro pc (add_new Z.eqb x pv) ga re bi se sv c s so t ac bl d tx.
(** state.go:145-151 BindToSelfAddress *)
Definition BindToSelfAddress (x : Z) (g : StateGenerator) : StateGenerator :=
  let 'mkStateGen st ro pc pv ga re bi se sv c s so t ac bl d tx := g in mkStateGen st ro pc pv ga re bi se (add_new Z.eqb x sv) c s so t ac bl d tx.
(** state.go:153-159 SetSelfAddress *)
Definition SetSelfAddress (A : Z) (g : StateGenerator) : StateGenerator :=
  let 'mkStateGen st ro pc pv ga re bi se sv c s so t ac bl d tx := g in mkStateGen st ro pc pv ga re bi (add_new Z.eqb A se) sv c s so t ac bl d tx.
(** state.go:161-174: SetGas, AddGasLowerBound, AddGasUpperBound apply an operation to the range solver; 176-189 the same for the refund *)
Definition on_gas (f : RangeSolver -> RangeSolver) (g : StateGenerator) : StateGenerator :=
  let 'mkStateGen st ro pc pv ga re bi se sv c s so t ac bl d tx := g in mkStateGen st ro pc pv (f ga) re bi se sv c s so t ac bl d tx.
Definition on_refund (f : RangeSolver -> RangeSolver) (g : StateGenerator) : StateGenerator :=
  let 'mkStateGen st ro pc pv ga re bi se sv c s so t ac bl d tx := g in mkStateGen st ro pc pv ga (f re) bi se sv c s so t ac bl d tx.
(** state.go:191-235, 237-250, 252-260, 262-297, 114-121 and 304-314, 316-322: the methods that wrap one of another generator *)
Definition on_code (f : CodeGenerator -> CodeGenerator) (g : StateGenerator) : StateGenerator :=
  let 'mkStateGen st ro pc pv ga re bi se sv c s so t ac bl d tx := g in mkStateGen st ro pc pv ga re bi se sv (f c) s so t ac bl d tx.
Definition on_stack (f : StackGenerator -> StackGenerator) (g : StateGenerator) : StateGenerator :=
  let 'mkStateGen st ro pc pv ga re bi se sv c s so t ac bl d tx := g in mkStateGen st ro pc pv ga re bi se sv c (f s) so t ac bl d tx.
Definition on_storage (f : StorageGenerator -> StorageGenerator) (g : StateGenerator) : StateGenerator :=
  let 'mkStateGen st ro pc pv ga re bi se sv c s so t ac bl d tx := g in mkStateGen st ro pc pv ga re bi se sv c s (f so) t ac bl d tx.
Definition on_transient (f : TransientGenerator -> TransientGenerator) (g : StateGenerator) : StateGenerator :=
  let 'mkStateGen st ro pc pv ga re bi se sv c s so t ac bl d tx := g in mkStateGen st ro pc pv ga re bi se sv c s so (f t) ac bl d tx.
Definition on_accounts (f : AccountsGenerator -> AccountsGenerator) (g : StateGenerator) : StateGenerator :=
  let 'mkStateGen st ro pc pv ga re bi se sv c s so t ac bl d tx := g in mkStateGen st ro pc pv ga re bi se sv c s so t (f ac) bl d tx.
Definition on_block (f : BlockGenerator -> BlockGenerator) (g : StateGenerator) : StateGenerator :=
  let 'mkStateGen st ro pc pv ga re bi se sv c s so t ac bl d tx := g in mkStateGen st ro pc pv ga re bi se sv c s so t ac (f bl) d tx.
Definition on_tx (f : TxGenerator -> TxGenerator) (g : StateGenerator) : StateGenerator :=
  let 'mkStateGen st ro pc pv ga re bi se sv c s so t ac bl d tx := g in mkStateGen st ro pc pv ga re bi se sv c s so t ac bl d (f tx).
(** state.go:296-302; selfdestruct.go:40-46 *)
Definition MustBeSelfDestructed (g : StateGenerator) : StateGenerator :=
  let 'mkStateGen st ro pc pv ga re bi se sv c s so t ac bl d tx := g in mkStateGen st ro pc pv ga re bi se sv c s so t ac bl (true, snd d) tx.
Definition MustNotBeSelfDestructed (g : StateGenerator) : StateGenerator :=
  let 'mkStateGen st ro pc pv ga re bi se sv c s so t ac bl d tx := g in mkStateGen st ro pc pv ga re bi se sv c s so t ac bl (fst d, true) tx.

(** The random numbers, by the place where they are drawn; the orders of the iterations over maps; the pooled stack. *)
Record draws := mkDraws {
  d_status : Z; d_code : nat -> Z; d_fill : Z -> Z; d_size : Z; d_readOnly : bool; d_pc : Z; d_gas : random; d_refund : random; d_self : Z;
  d_destructed : bool; d_storage : nat -> Z; d_transient : nat -> Z; d_transient_order : list (Z * bool);
  d_accounts : choices; d_tx : nat -> random; d_tx_order : list (Z * bool); d_tx_order' : list (Z * bool);
  d_block : random; d_ranges : nat -> random; d_time : random;
  d_values : list (Z * Z); d_vars : list (Z * bool); d_values' : list (Z * Z); d_vars' : list (Z * bool);
  d_stack : random; d_stack_fill : nat -> Z; d_pool : list Z }.

(** st.State: the fields requests are about; [s_self] is CallContext.AccountAddress, [s_blobs] the number of TransactionContext.BlobHashes,
    [s_block] and [s_time] are those of BlockContext *)
Record State := mkState {
  s_status : Z; s_readOnly : bool; s_pc : Z; s_gas : Z; s_refund : Z; s_code : list Z; s_self : Z; s_destructed : bool;
  s_storage : storage; s_transient : Z -> option Z; s_accounts : Accounts; s_blobs : Z; s_block : Z; s_time : Z; s_revision : Z; s_stack : list Z }.

(** 340-347 *)
Fixpoint enforce (l : list (Z * Z)) (a : Assignment) : outcome Assignment :=
  match l with
  | [] => Generated a
  | (x, v) :: l' => match a x with Some w => if w =? v then enforce l' (put a x v) else ErrUnsatisfiable | None => enforce l' (put a x v) end
  end.
(** 349-360 *)
Definition pick_status (r : Z) (l : list Z) : outcome Z :=
  match l with
  | [] => Generated (r mod NumStatusCodes)
  | [s] => if (s <? 0) || (s >=? NumStatusCodes) then ErrUnsatisfiable else Generated s
  | _ => ErrUnsatisfiable
  end.
(** 369-376 *)
Definition pick_readOnly (r : bool) (l : list bool) : outcome bool :=
  match l with [] => Generated r | [b] => Generated b | _ => ErrUnsatisfiable end.
(** 381-391 *)
Fixpoint pc_values (l : list Z) (a : Assignment) (values : list Z) : outcome (list Z) :=
  match l with
  | [] => Generated values
  | x :: l' => match a x with None => ErrUnboundVariable | Some v => pc_values l' a (add_new Z.eqb (v mod 2 ^ 16) values) end
  end.
(** 392-401; the program counter is a uint16 *)
Definition pick_pc (r : Z) (code : list Z) (values : list Z) : outcome Z :=
  match values with
  | [] => Generated (if zlen code >? 0 then (r mod zlen code) mod 2 ^ 16 else 0)
  | [v] => Generated v
  | _ => ErrUnsatisfiable
  end.
(** 433-446 *)
Fixpoint self_bindings (l : list Z) (a : Assignment) (address : option Z) : outcome (option Z) :=
  match l with
  | [] => Generated address
  | x :: l' =>
    match a x with
    | None => self_bindings l' a address
    | Some v => match address with
                | None => self_bindings l' a (Some (NewAddress v))
                | Some A => if NewAddress v =? A then self_bindings l' a address else ErrUnsatisfiable
                end
    end
  end.
(** 421-453 *)
Definition pick_self (r : Z) (l vars : list Z) (a : Assignment) : outcome Z :=
  match l with
  | _ :: _ :: _ => ErrUnsatisfiable
  | _ => gen! o <- self_bindings vars a (match l with A :: _ => Some A | [] => None end);
         Generated (match o with Some A => A | None => NewAddress r end)
  end.
(** 455-459 *)
Definition assign_self (A : Z) (vars : list Z) (a : Assignment) : Assignment := fold_left (fun a x => put a x A) vars a.
(** selfdestruct.go:61-76 *)
Definition pick_destructed (r : bool) (d : bool * bool) : outcome bool :=
  match d with (false, false) => Generated r | (true, true) => ErrUnsatisfiable | (true, false) => Generated true | (false, true) => Generated false end.

(** state.go:337-562 generateWith: up to the self address (459), the rest, and the whole *)
Definition generate_first (d : draws) (a : Assignment) (g : StateGenerator) : outcome (Z * list Z * bool * Z * Z * Z * Z * Assignment) :=
  gen! a0 <- enforce (gn_bindings g) a;
  gen! status <- pick_status (d_status d) (gn_status g);
  gen! ' (code, a1) <- CodeGenerate (d_code d) (d_fill d) (d_size d) a0 (gn_code g);
  gen! readOnly <- pick_readOnly (d_readOnly d) (gn_readOnly g);
  gen! values <- pc_values (gn_pcVar g) a1 (gn_pc g);
  gen! pc <- pick_pc (d_pc d) code values;
  gen! gas <- solved (RangeGenerate tInt (d_gas d) (gn_gas g));
  gen! refund <- solved (RangeGenerate tInt (d_refund d) (gn_refund g));
  gen! self <- pick_self (d_self d) (gn_self g) (gn_selfVar g) a1;
  Generated (status, code, readOnly, pc, gas, refund, self, assign_self self (gn_selfVar g) a1).
Definition generate_rest (d : draws) (fuel : nat) (self : Z) (a : Assignment) (g : StateGenerator)
    : outcome (bool * storage * (Z -> option Z) * Accounts * Z * Z * Z * list Z * Assignment) :=
  gen! destructed <- pick_destructed (d_destructed d) (gn_destructed g);
  gen! ' (sto, a1) <- StorageGenerate (d_storage d) fuel a (gn_storage g);
  gen! ' (tra, a2) <- TransientGenerate (d_transient d) fuel (d_transient_order d) a1 (gn_transient g);
  gen! ' (acc, a3) <- AccountsGenerate (d_accounts d) fuel a2 self (gn_accounts g);
  gen! ' (blobs, a4) <- TxGenerate (d_tx d) (d_tx_order d) (d_tx_order' d) a3 (gn_tx g);
  gen! ' (block, time, a5) <- BlockGenerate (d_block d) (d_ranges d) (d_time d) (d_values d) (d_vars d) (d_values' d) (d_vars' d) a4 (gn_block g);
  gen! stack <- StackGenerate (d_stack d) (d_stack_fill d) (d_pool d) a5 (gn_stack g);
  Generated (destructed, sto, tra, acc, blobs, block, time, stack, a5).
Definition StateGenerate (d : draws) (fuel : nat) (a : Assignment) (g : StateGenerator) : outcome (State * Assignment) :=
  gen! ' (status, code, readOnly, pc, gas, refund, self, a1) <- generate_first d a g;
  gen! ' (destructed, sto, tra, acc, blobs, block, time, stack, a2) <- generate_rest d fuel self a1 g;
  Generated (mkState status readOnly pc gas refund code self destructed sto tra acc blobs block time (GetRevisionForBlock block) stack, a2).
