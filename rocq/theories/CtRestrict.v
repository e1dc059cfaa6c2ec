(** * go/ct/rlz/conditions.go, expressions.go, domains.go, rules.go: conditions that restrict the generator of states, and
    the evaluation of conditions for the states it generates. The expressions and conditions are those of CtRules.v; the
    expressions Constant and ToAddress(..) of others than the own address are used by no rule and left out, like GetTestValues
    and String. Variables are numbers: 0 is PC, 1 is self, 2 + i is param_i. *)
From Verif Require Import Base Host GoStorage Lfvm CtRules CtSolve CtGen CtCodeGen CtContext CtAccounts CtState.
From Coq Require Import ZArith List Bool.
Import ListNotations.
Open Scope Z_scope.

(** ** Check *)
(** expressions.go:73, 101, 140, 211, 241, 287-300, 330, 375-380 Eval, for the states of CtState.v; None: an error (or a panic, for
    a parameter with a negative number) *)
Fixpoint Eval (s : State) (e : expr) : option Z :=
  match e with
  | EStatus => Some (s_status s)
  | EReadOnly => Some (if s_readOnly s then 1 else 0)
  | EGas => Some (s_gas s)
  | ESize => Some (zlen (s_stack s))
  | EPc => Some (s_pc s)
  | EParam i => if zlen (s_stack s) <=? i then None else znth (s_stack s) i
  | EOp p =>
    match Eval s p with
    | None => None
    | Some pos => if negb (isUint64 pos) || (2 ^ 63 - 1 <? pos) then Some 0 else match GetOperation (s_code s) pos with Ok o => o | _ => None end
    end
  | EBalanceOfSelf => Some (CtAccounts.GetBalance (s_accounts s) (s_self s))
  end.
(** conditions.go:116-1040 (see CtRules.v, check) the Check methods, for the states of CtState.v *)
Definition Check (s : State) (c : cond) : option bool :=
  let on e (k : Z -> bool) : option bool := match Eval s e with None => None | Some v => Some (k v) end in
  match c with
  | Cmp c e v => on e (fun x => compare c x v)
  | RevisionBounds lo hi => Some ((lo <=? s_revision s) && (s_revision s <=? hi))
  | IsCode e => on e (fun p => if negb (isUint64 p) || (2 ^ 63 - 1 <? p) then true else IsCodeAt (s_code s) p)
  | IsData e => on e (fun p => if negb (isUint64 p) || (2 ^ 63 - 1 <? p) then false else negb (IsCodeAt (s_code s) p))
  | IsStorageWarm e => on e (fun k => s_warm (s_storage s) k)
  | IsStorageCold e => on e (fun k => negb (s_warm (s_storage s) k))
  | StorageConfiguration config key value =>
    match Eval s key with
    | None => None
    | Some k => on value (fun v => status_is config (GetStorageStatus (read (s_original (s_storage s)) k) (read (s_current (s_storage s)) k) v))
    end
  | TransientNonZero e => on e (fun k => negb (read (s_transient s) k =? 0))
  | TransientZero e => on e (fun k => read (s_transient s) k =? 0)
  | AccountIsEmpty e => on e (fun a => CtAccounts.IsEmpty (s_accounts s) (NewAddress a))
  | AccountIsNotEmpty e => on e (fun a => negb (CtAccounts.IsEmpty (s_accounts s) (NewAddress a)))
  | IsAddressWarm e => on e (fun a => CtAccounts.IsWarm (s_accounts s) (NewAddress a))
  | IsAddressCold e => on e (fun a => negb (CtAccounts.IsWarm (s_accounts s) (NewAddress a)))
  | HasSelfDestructed => Some (s_destructed s)
  | HasNotSelfDestructed => Some (negb (s_destructed s))
  | InRange256 e => on e (fun n => isUint64 n && ((if 256 <? s_block s then s_block s - 256 else 0) <=? n) && (n <? s_block s))
  | OutOfRange256 e => on e (fun n => negb (isUint64 n && ((if 256 <? s_block s then s_block s - 256 else 0) <=? n) && (n <? s_block s)))
  | HasBlobHash e => on e (fun i => isUint64 i && (i <? s_blobs s))
  | HasNoBlobHash e => on e (fun i => negb (isUint64 i && (i <? s_blobs s)))
  end.

(** ** Restrict *)
(** expressions.go:26-34 *)
Inductive kind := Less | LessEqual | Equal | GreaterEqual | Greater.
(** expressions.go: 119, 191, 394 GetVariable of pc, of the own address (476: of its conversion), of which [EBalanceOfSelf] is the balance *)
Definition variable (e : expr) : Z := match e with EPc => 0 | EParam i => 2 + i | _ => 1 end.
(** expressions.go:123, 195, 398 BindTo of the same *)
Definition BindTo (e : expr) (g : StateGenerator) : StateGenerator :=
  match e with EPc => BindPc 0 g | EParam i => on_stack (BindValue i (2 + i)) g | _ => BindToSelfAddress 1 g end.
(** expressions.go:77, 105, 144, 215, 249, 304, 334, 383 Restrict; None: panic *)
Definition RestrictExpr (k : kind) (e : expr) (v : Z) (g : StateGenerator) : option StateGenerator :=
  match e with
  | EStatus => match k with Equal => Some (SetStatus v g) | _ => None end
  | EReadOnly => match k with Equal => Some (SetReadOnly (negb (v =? 0)) g) | _ => None end
  | EPc => match k with Equal => if isUint64 v && (v <=? 65535) then Some (SetPc v g) else None | _ => None end
  | EGas => Some (match k with
      | Less => on_gas (RangeAddUpper (s64 (v - 1))) g
      | LessEqual => on_gas (RangeAddUpper v) g
      | Equal => on_gas (RangeAddEqual v) g
      | GreaterEqual => on_gas (RangeAddLower v) g
      | Greater => on_gas (RangeAddLower (s64 (v + 1))) g
      end)
  | ESize => Some (match k with
      | Less => on_stack (AddMaxSize (s64 (v - 1))) g
      | LessEqual => on_stack (AddMaxSize v) g
      | Equal => on_stack (SetSize v) g
      | GreaterEqual => on_stack (AddMinSize v) g
      | Greater => on_stack (AddMinSize (s64 (v + 1))) g
      end)
  | EParam i => match k with Equal => Some (on_stack (SetValue i v) g) | _ => None end
  | EOp p => match k with Equal => Some (on_code (AddOperation (variable p) v) (BindTo p g)) | _ => None end
  | EBalanceOfSelf => let g := BindTo e g in
    Some (match k with
      | Less => on_accounts (AddBalanceUpperBound 1 (word (v - 1))) g
      | LessEqual => on_accounts (AddBalanceUpperBound 1 v) g
      | Equal => on_accounts (AddBalanceUpperBound 1 v) (on_accounts (AddBalanceLowerBound 1 v) g)
      | GreaterEqual => on_accounts (AddBalanceLowerBound 1 v) g
      | Greater => on_accounts (AddBalanceLowerBound 1 (word (v + 1))) g
      end)
  end.
(** domains.go:40-45, 112-117, 236-248, 265-267, 297-299, 317-319, 352-354 Predecessor, Successor, SomethingNotEqual; None: panic *)
Definition Predecessor (e : expr) (v : Z) : option Z :=
  match e with EStatus | EReadOnly | EOp _ => None | EGas | ESize => Some (s64 (v - 1)) | _ => Some (word (v - 1)) end.
Definition Successor (e : expr) (v : Z) : option Z :=
  match e with EStatus | EReadOnly | EOp _ => None | EGas | ESize => Some (s64 (v + 1)) | _ => Some (word (v + 1)) end.
Definition SomethingNotEqual (e : expr) (v : Z) : Z :=
  match e with
  | EStatus => if v =? 0 then 1 else 0
  | EReadOnly => if v =? 0 then 1 else 0
  | EOp _ => (v + 1) mod 2 ^ 8
  | EGas => s64 (v + 1)
  | ESize => Z.rem (s64 (v + 1)) 1024
  | _ => word (v + 1)
  end.
(** conditions.go:125, 167, 201, 235, 268, 302, 345, 400, 450, 483, 530, 569, 613, 657, 690, 731, 764, 797, 840, 878, 918, 959, 997, 1042 Restrict *)
Definition Restrict (c : cond) (g : StateGenerator) : option StateGenerator :=
  match c with
  | Cmp Eq e v => RestrictExpr Equal e v g
  | Cmp Ne e v => RestrictExpr Equal e (SomethingNotEqual e v) g
  | Cmp Lt e v => match Predecessor e v with Some w => RestrictExpr Less e w g | None => None end
  | Cmp Le e v => RestrictExpr LessEqual e v g
  | Cmp Gt e v => match Successor e v with Some w => RestrictExpr Greater e w g | None => None end
  | Cmp Ge e v => RestrictExpr GreaterEqual e v g
  | RevisionBounds lo hi => Some (on_block (AddRevisionBounds lo hi) g)
  | IsCode e => Some (on_code (AddIsCode (variable e)) (BindTo e g))
  | IsData e => Some (on_code (AddIsData (variable e)) (BindTo e g))
  | IsStorageWarm e => Some (on_storage (BindWarm (variable e)) (BindTo e g))
  | IsStorageCold e => Some (on_storage (BindCold (variable e)) (BindTo e g))
  | StorageConfiguration config key value => Some (on_storage (BindConfiguration config (variable key) (variable value)) (BindTo value (BindTo key g)))
  | TransientNonZero e => Some (on_transient (BindToNonZero (variable e)) (BindTo e g))
  | TransientZero e => Some (on_transient (BindToZero (variable e)) (BindTo e g))
  | AccountIsEmpty e => Some (on_accounts (BindToAddressOfEmptyAccount (variable e)) (BindTo e g))
  | AccountIsNotEmpty e => Some (on_accounts (BindToAddressOfNonEmptyAccount (variable e)) (BindTo e g))
  | IsAddressWarm e => Some (on_accounts (AccountBindWarm (variable e)) (BindTo e g))
  | IsAddressCold e => Some (on_accounts (AccountBindCold (variable e)) (BindTo e g))
  | HasSelfDestructed => Some (MustBeSelfDestructed g)
  | HasNotSelfDestructed => Some (MustNotBeSelfDestructed g)
  | InRange256 e => Some (on_block (RestrictVariableToOneOfTheLast256Blocks (variable e)) (BindTo e g))
  | OutOfRange256 e => Some (on_block (RestrictVariableToNoneOfTheLast256Blocks (variable e)) (BindTo e g))
  | HasBlobHash e => Some (on_tx (IsPresentBlobHashIndex (variable e)) (BindTo e g))
  | HasNoBlobHash e => Some (on_tx (IsAbsentBlobHashIndex (variable e)) (BindTo e g))
  end.
(** conditions.go:73-77 *)
Fixpoint RestrictAll (cs : list cond) (g : StateGenerator) : option StateGenerator :=
  match cs with [] => Some g | c :: cs => match Restrict c g with Some g => RestrictAll cs g | None => None end end.
(** rules.go:33-38 GenerateSatisfyingState, with the variables at the end; None: panic while restricting *)
Definition GenerateSatisfyingState (d : draws) (fuel : nat) (cs : list cond) : option (outcome (State * Assignment)) :=
  match RestrictAll cs NewStateGenerator with Some g => Some (StateGenerate d fuel (fun _ => None) g) | None => None end.
