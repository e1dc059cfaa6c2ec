(** Conditions of rules: which ones the property is about, and what they ask of the generator of states. *)
From Verif Require Import Base Host Lfvm Ct CtRules CtSolve SpecSolve CtGen SpecGen CtCodeGen SpecCode CtContext SpecContext CtAccounts SpecAccounts CtState SpecState CtRestrict.
From Coq Require Import ZArith List Bool.
Import ListNotations.
Open Scope Z_scope.

(** a word on the stack, by its position from the top *)
Definition parameter (e : expr) : Prop := match e with EParam i => 0 <= i < 2 ^ 62 | _ => False end.
Definition position (e : expr) : Prop := e = EPc \/ parameter e.
(** The constants are of the types of the expressions; the two largest and smallest constants of a type are left out where they are
    counted up or down twice (see C95_balance_refuted). *)
Definition constant_ok (c : comparison) (e : expr) (v : Z) : Prop :=
  match e with
  | EStatus => True
  | EReadOnly => v = 0 \/ v = 1
  | EGas | ESize => - 2 ^ 63 + 2 <= v <= 2 ^ 63 - 3
  | EPc => is_word v
  | EParam _ => parameter e /\ is_word v
  | EOp p => position p /\ 0 <= v < 256
  | EBalanceOfSelf => is_word v /\ (c = Lt -> 2 <= v) /\ (c = Gt -> v <= 2 ^ 256 - 3)
  end.
Definition cond_ok (c : cond) : Prop :=
  match c with
  | Cmp c e v => constant_ok c e v
  | RevisionBounds lo hi => block_request_ok (Revisions lo hi)
  | IsCode e | IsData e => position e
  | StorageConfiguration _ k v => parameter k /\ parameter v
  | IsStorageWarm e | IsStorageCold e | TransientNonZero e | TransientZero e | AccountIsEmpty e | AccountIsNotEmpty e | IsAddressWarm e | IsAddressCold e
  | InRange256 e | OutOfRange256 e | HasBlobHash e | HasNoBlobHash e => parameter e
  | HasSelfDestructed | HasNotSelfDestructed => True
  end.

(** The requests. *)
Definition bound (e : expr) : state_request := match e with EPc => PcVar 0 | EParam i => StackHas (HoldsVar i (2 + i)) | _ => SelfVar 1 end.
Definition asked_expr (k : kind) (e : expr) (v : Z) : list state_request :=
  match e with
  | EStatus => [HasStatus v]
  | EReadOnly => [InMode (negb (v =? 0))]
  | EPc => [PcIs v]
  | EGas => [GasIs (match k with Less => SpecSolve.AtMost (s64 (v - 1)) | LessEqual => SpecSolve.AtMost v | Equal => Exactly v | GreaterEqual => SpecSolve.AtLeast v | Greater => SpecSolve.AtLeast (s64 (v + 1)) end)]
  | ESize => [StackHas (match k with Less => MaxSize (s64 (v - 1)) | LessEqual => MaxSize v | Equal => Size v | GreaterEqual => MinSize v | Greater => MinSize (s64 (v + 1)) end)]
  | EParam i => [StackHas (Holds i v)]
  | EOp p => [bound p; CodeHas (OpVar (variable p) v)]
  | EBalanceOfSelf => SelfVar 1 :: map AccountsHave (match k with
      | Less => [AtMost 1 (word (v - 1))] | LessEqual => [AtMost 1 v] | Equal => [AtLeast 1 v; AtMost 1 v]
      | GreaterEqual => [AtLeast 1 v] | Greater => [AtLeast 1 (word (v + 1))] end)
  end.
Definition or_zero (o : option Z) : Z := match o with Some v => v | None => 0 end.
Definition asked (c : cond) : list state_request :=
  match c with
  | Cmp Eq e v => asked_expr Equal e v
  | Cmp Ne e v => asked_expr Equal e (SomethingNotEqual e v)
  | Cmp Lt e v => asked_expr Less e (or_zero (Predecessor e v))
  | Cmp Le e v => asked_expr LessEqual e v
  | Cmp Gt e v => asked_expr Greater e (or_zero (Successor e v))
  | Cmp Ge e v => asked_expr GreaterEqual e v
  | RevisionBounds lo hi => [BlockHas (Revisions lo hi)]
  | IsCode e => [bound e; CodeHas (CodeVar (variable e))]
  | IsData e => [bound e; CodeHas (DataVar (variable e))]
  | IsStorageWarm e => [bound e; StorageHas (Warm (variable e))]
  | IsStorageCold e => [bound e; StorageHas (Cold (variable e))]
  | StorageConfiguration config k v => [bound k; bound v; StorageHas (Config config (variable k) (variable v))]
  | TransientNonZero e => [bound e; TransientHas (NonZero (variable e))]
  | TransientZero e => [bound e; TransientHas (Zero (variable e))]
  | AccountIsEmpty e => [bound e; AccountsHave (Empty (variable e))]
  | AccountIsNotEmpty e => [bound e; AccountsHave (NonEmpty (variable e))]
  | IsAddressWarm e => [bound e; AccountsHave (WarmAt (variable e))]
  | IsAddressCold e => [bound e; AccountsHave (ColdAt (variable e))]
  | HasSelfDestructed => [IsDestructed true]
  | HasNotSelfDestructed => [IsDestructed false]
  | InRange256 e => [bound e; BlockHas (OneOfLast256 (variable e))]
  | OutOfRange256 e => [bound e; BlockHas (NoneOfLast256 (variable e))]
  | HasBlobHash e => [bound e; BlobsHave (Present (variable e))]
  | HasNoBlobHash e => [bound e; BlobsHave (Absent (variable e))]
  end.
Definition asked_all (cs : list cond) : list state_request := flat_map asked cs.

(** The exceptions: conditions with a request that is missed (see C94). *)
Definition excused (b : Assignment) (s : State) (cs : list cond) (c : cond) : Prop := exists q, In q (asked c) /\ missed b s (asked_all cs) q.

(** The exceptions that remain for the rules of the specification: an empty account that is to be the executing one; conditions on
    the block if there is one that is to be out of range, for block numbers up to 255. *)
Definition remains (s : State) (cs : list cond) (c : cond) : Prop :=
  (exists e v, c = AccountIsEmpty e /\ Eval s e = Some v /\ v mod 2 ^ 160 = s_self s) \/
  (1 <= s_block s <= 255 /\ exists e, In (OutOfRange256 e) cs /\ (c = OutOfRange256 e \/ exists lo hi, c = RevisionBounds lo hi)).


(** A state of the specification of instructions (see CtRules.v), with its block and transaction, that is the generated state [t]: the
    components that conditions refer to are the same. *)
Definition represents (tx : tx_context) (s : state) (t : State) : Prop :=
  let w := ct_world s in
  status_num (ct_stat s) = s_status t /\ ct_readonly s = s_readOnly t /\ ct_revision s = s_revision t /\ ct_pc s = s_pc t /\ ct_gas s = s_gas t /\ ct_refund s = s_refund t /\
  ct_code s = s_code t /\ rev (ct_stack s) = s_stack t /\ ct_self s = s_self t /\ w_destructed w = s_destructed t /\
  tx_number tx = s_block t /\ tx_timestamp tx = s_time t /\ zlen (tx_blob_hashes tx) = s_blobs t /\
  (forall k, GetCurrent w k = read (s_current (s_storage t)) k) /\ (forall k, GetOriginal w k = read (s_original (s_storage t)) k) /\
  (forall k, CtRules.IsWarm w k = s_warm (s_storage t) k) /\ (forall k, TGet w k = read (s_transient t) k) /\
  (forall a, CtRules.GetBalance w a = CtAccounts.GetBalance (s_accounts t) a) /\ (forall a, CtRules.GetCode w a = CtAccounts.GetCode (s_accounts t) a) /\
  (forall a, AccIsWarm w a = CtAccounts.IsWarm (s_accounts t) a).
