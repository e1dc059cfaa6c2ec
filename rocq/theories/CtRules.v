(** The specification of the conformance tests: go/ct/spc/specification.go, with the conditions of go/ct/rlz, the states of go/ct/st and
    the run context of go/ct/utils/adapter.go.  Names and parameters of rules, which guide the generation of tests only, are left out.
    Words are numbers below 2^256; the calls of package uint256 (third party) are modelled as in Lfvm.v.  Run time panics are [Undef]. *)
From Verif Require Import Base Host Uint256 GoAdapter GoStorage LfvmCode Lfvm Ct.
From Coq Require Import ZArith List Bool.
Import ListNotations.
Open Scope Z_scope.

(** ** go/ct/st: the components of states that are behind the run context *)
(** go/ct/st/call_journal.go:121-129 *)
Record past_call : Set := mkPast { pc_kind : go_kind; pc_recipient : Z; pc_sender : Z; pc_input : list Z; pc_value : Z; pc_gas : Z; pc_code_address : Z }.
(** go/ct/st/call_journal.go:161-167 FutureCall *)
Record future_call : Set := mkFuture { fc_success : bool; fc_output : list Z; fc_costs : Z; fc_refund : Z; fc_created : Z }.
(** go/ct/st/state.go:138-162: Storage (current, original, warm), TransientStorage, Accounts (accounts with balance and code, warm),
    Logs (topics and data), CallJournal, HasSelfDestructed, SelfDestructedJournal, RecentBlockHashes.  Maps are lists of pairs, the
    first entry for a key counts; sets are lists without repetitions. *)
Record ctw : Set := mkCtw {
  w_current : list (Z * Z); w_original : list (Z * Z); w_warm : list Z; w_transient : list (Z * Z);
  w_accounts : list (Z * (Z * list Z)); w_warm_accounts : list Z; w_logs : list (list Z * list Z);
  w_past : list past_call; w_future : list future_call; w_destructed : bool; w_journal : list (Z * Z); w_hashes : list Z }.

(** a map access: the zero value if there is no entry *)
Fixpoint entry {A} (m : list (Z * A)) (k : Z) (zero : A) : A :=
  match m with [] => zero | (k', v) :: m => if k' =? k then v else entry m k zero end.
Definition contains (l : list Z) (k : Z) : bool := existsb (Z.eqb k) l.
Definition insert (l : list Z) (k : Z) : list Z := if contains l k then l else k :: l.
(** the types of entries: words (common.U256, tosca.Hash), and slices of bytes, which have fewer than 2^63 elements *)
Definition word (v : Z) : Z := v mod 2 ^ 256.
Definition byte_slice (d : list Z) : list Z := if zlen d <? 2 ^ 63 then map (fun b => b mod 256) d else [].

(** go/ct/st/storage.go:73-131 *)
Definition GetCurrent (w : ctw) (k : Z) : Z := word (entry (w_current w) k 0).
Definition GetOriginal (w : ctw) (k : Z) : Z := word (entry (w_original w) k 0).
Definition SetCurrent (k v : Z) (w : ctw) : ctw :=
  mkCtw ((k, v) :: w_current w) (w_original w) (w_warm w) (w_transient w) (w_accounts w) (w_warm_accounts w) (w_logs w) (w_past w) (w_future w) (w_destructed w) (w_journal w) (w_hashes w).
Definition IsWarm (w : ctw) (k : Z) : bool := contains (w_warm w) k.
Definition MarkWarm (k : Z) (w : ctw) : ctw :=
  mkCtw (w_current w) (w_original w) (insert (w_warm w) k) (w_transient w) (w_accounts w) (w_warm_accounts w) (w_logs w) (w_past w) (w_future w) (w_destructed w) (w_journal w) (w_hashes w).
(** go/ct/st/transient_storage.go:22-40 *)
Definition TGet (w : ctw) (k : Z) : Z := word (entry (w_transient w) k 0).
Definition TSet (k v : Z) (w : ctw) : ctw :=
  let rest := filter (fun e => negb (fst e =? k)) (w_transient w) in
  mkCtw (w_current w) (w_original w) (w_warm w) (if v =? 0 then rest else (k, v) :: rest) (w_accounts w) (w_warm_accounts w) (w_logs w) (w_past w) (w_future w) (w_destructed w) (w_journal w) (w_hashes w).
(** go/ct/st/accounts.go:54-113 *)
Definition GetBalance (w : ctw) (a : Z) : Z := word (fst (entry (w_accounts w) a (0, []))).
Definition GetCode (w : ctw) (a : Z) : list Z := byte_slice (snd (entry (w_accounts w) a (0, []))).
Definition AccIsEmpty (w : ctw) (a : Z) : bool := (GetBalance w a =? 0) && match GetCode w a with [] => true | _ => false end.
(** accounts.go:79-84: hasher.Sum(hash[:]) appends the hash to a full slice and the result is dropped; what is returned is zero *)
Definition GetCodeHash (w : ctw) (a : Z) : Z := 0.
Definition AccIsWarm (w : ctw) (a : Z) : bool := contains (w_warm_accounts w) a.
Definition AccMarkWarm (a : Z) (w : ctw) : ctw :=
  mkCtw (w_current w) (w_original w) (w_warm w) (w_transient w) (w_accounts w) (insert (w_warm_accounts w) a) (w_logs w) (w_past w) (w_future w) (w_destructed w) (w_journal w) (w_hashes w).
(** the recent block hashes; go/ct/common/immutable_hash_array.go *)
Definition hash_at (w : ctw) (i : Z) : Z := word (nth (Z.to_nat i) (w_hashes w) 0).
(** go/ct/st/logs.go:41-46 *)
Definition AddLog (data topics : list Z) (w : ctw) : ctw :=
  mkCtw (w_current w) (w_original w) (w_warm w) (w_transient w) (w_accounts w) (w_warm_accounts w) (w_logs w ++ [(topics, data)]) (w_past w) (w_future w) (w_destructed w) (w_journal w) (w_hashes w).
(** go/ct/utils/adapter.go:157-160 SelfDestructedJournal and HasSelfDestructed *)
Definition AddDestruct (a b : Z) (w : ctw) : ctw :=
  mkCtw (w_current w) (w_original w) (w_warm w) (w_transient w) (w_accounts w) (w_warm_accounts w) (w_logs w) (w_past w) (w_future w) true (w_journal w ++ [(a, b)]) (w_hashes w).
(** go/ct/st/call_journal.go:34-66; tosca.CallResult *)
Definition JournalCall (kind : go_kind) (p : call_params) (w : ctw) : call_result * ctw :=
  let past := w_past w ++ [mkPast kind (cp_recipient p) (cp_sender p) (cp_input p) (cp_value p) (cp_gas p) (cp_code_address p)] in
  let result := match w_future w with [] => mkFuture false [] 0 0 0 | r :: _ => r end in
  let gasLeft := if cp_gas p <? fc_costs result then 0 else s64 (cp_gas p - fc_costs result) in
  (mkCallResult (fc_output result) gasLeft (fc_refund result) (fc_created result) (fc_success result),
   mkCtw (w_current w) (w_original w) (w_warm w) (w_transient w) (w_accounts w) (w_warm_accounts w) (w_logs w) past (tl (w_future w)) (w_destructed w) (w_journal w) (w_hashes w)).

(** ** go/ct/utils/adapter.go:70-233 ctRunContext *)
Definition ct_rc (tx : tx_context) : run_context ctw := mkRC ctw
  (fun _ _ => 0)                                   (* 206-211 GetNonce *)
  (fun w a => GetBalance w a)                      (* 106-109 *)
  (fun w a => zlen (GetCode w a))                  (* 111-113 *)
  (fun w a => GetCodeHash w a)                     (* 115-117 *)
  (fun w a => GetCode w a)                         (* 119-121 *)
  (fun w _ k => GetCurrent w k)                    (* 83-87 *)
  (fun w _ k => TGet w k)                          (* 98-100 *)
  (fun w n =>                                      (* 127-138; int64(BlockNumber) *)
     let max := s64 (tx_number tx) in
     let min := if 256 <? max then max - 256 else 0 in
     if (n <? min) || (max <=? n) then 0 else hash_at w (max - n - 1))
  (fun w _ k v => (GetStorageStatus (GetOriginal w k) (GetCurrent w k) v, SetCurrent k v w))          (* 89-96 *)
  (fun w _ k v => TSet k v w)                      (* 102-104 *)
  (fun w a => (if AccIsWarm w a then WARM else COLD, AccMarkWarm a w))                                (* 163-171 *)
  (fun w _ k => (if IsWarm w k then WARM else COLD, MarkWarm k w))                                    (* 173-183 *)
  (fun w a b => (negb (w_destructed w), AddDestruct a b w))                                            (* 154-161 *)
  (fun w _ topics data => AddLog data topics w).   (* 140-148 *)
(** go/ct/utils/adapter.go:150-152 Call *)
Definition ct_Call (w : ctw) (kind : go_kind) (p : call_params) : option call_result * ctw :=
  let '(r, w') := JournalCall kind p w in (Some r, w').

Definition state := ct_state ctw.
Definition set_status (v : ct_status) (s : state) : state := mkCt v (ct_revision s) (ct_readonly s) (ct_pc s) (ct_gas s) (ct_refund s) (ct_code s) (ct_stack s) (ct_mem s) (ct_self s) (ct_caller s) (ct_value s) (ct_calldata s) (ct_last s) (ct_ret s) (ct_world s).
Definition set_pc (v : Z) (s : state) : state := mkCt (ct_stat s) (ct_revision s) (ct_readonly s) v (ct_gas s) (ct_refund s) (ct_code s) (ct_stack s) (ct_mem s) (ct_self s) (ct_caller s) (ct_value s) (ct_calldata s) (ct_last s) (ct_ret s) (ct_world s).
Definition set_gas (v : Z) (s : state) : state := mkCt (ct_stat s) (ct_revision s) (ct_readonly s) (ct_pc s) v (ct_refund s) (ct_code s) (ct_stack s) (ct_mem s) (ct_self s) (ct_caller s) (ct_value s) (ct_calldata s) (ct_last s) (ct_ret s) (ct_world s).
Definition set_refund (v : Z) (s : state) : state := mkCt (ct_stat s) (ct_revision s) (ct_readonly s) (ct_pc s) (ct_gas s) v (ct_code s) (ct_stack s) (ct_mem s) (ct_self s) (ct_caller s) (ct_value s) (ct_calldata s) (ct_last s) (ct_ret s) (ct_world s).
Definition set_stack (v : list Z) (s : state) : state := mkCt (ct_stat s) (ct_revision s) (ct_readonly s) (ct_pc s) (ct_gas s) (ct_refund s) (ct_code s) v (ct_mem s) (ct_self s) (ct_caller s) (ct_value s) (ct_calldata s) (ct_last s) (ct_ret s) (ct_world s).
Definition set_mem (v : list Z) (s : state) : state := mkCt (ct_stat s) (ct_revision s) (ct_readonly s) (ct_pc s) (ct_gas s) (ct_refund s) (ct_code s) (ct_stack s) v (ct_self s) (ct_caller s) (ct_value s) (ct_calldata s) (ct_last s) (ct_ret s) (ct_world s).
Definition set_last (v : list Z) (s : state) : state := mkCt (ct_stat s) (ct_revision s) (ct_readonly s) (ct_pc s) (ct_gas s) (ct_refund s) (ct_code s) (ct_stack s) (ct_mem s) (ct_self s) (ct_caller s) (ct_value s) (ct_calldata s) v (ct_ret s) (ct_world s).
Definition set_ret (v : list Z) (s : state) : state := mkCt (ct_stat s) (ct_revision s) (ct_readonly s) (ct_pc s) (ct_gas s) (ct_refund s) (ct_code s) (ct_stack s) (ct_mem s) (ct_self s) (ct_caller s) (ct_value s) (ct_calldata s) (ct_last s) v (ct_world s).
Definition set_world (v : ctw) (s : state) : state := mkCt (ct_stat s) (ct_revision s) (ct_readonly s) (ct_pc s) (ct_gas s) (ct_refund s) (ct_code s) (ct_stack s) (ct_mem s) (ct_self s) (ct_caller s) (ct_value s) (ct_calldata s) (ct_last s) (ct_ret s) v.

(** ** go/ct/st/code.go *)
(** 47-63 NewCode: which positions are instructions; data of a truncated PUSH reaches behind the code *)
Fixpoint isCode_loop (fuel : nat) (rest : list Z) : list bool :=
  match fuel, rest with
  | S fuel, op :: rest =>
    if (0x60 <=? op) && (op <=? 0x7F) then
      let width := Z.to_nat (op - 0x60 + 1) in true :: repeat false width ++ isCode_loop fuel (skipn width rest)
    else true :: isCode_loop fuel rest
  | _, _ => []
  end.
Definition isCode_of (code : list Z) : list bool := isCode_loop (length code) code.
(** 86-95 IsCode, IsData *)
Definition IsCodeAt (code : list Z) (pos : Z) : bool := match znth (isCode_of code) pos with Some b => b | None => true end.
(** 97-105 GetOperation; None: ErrInvalidPosition *)
Definition GetOperation (code : list Z) (pos : Z) : res (option Z) :=
  match znth (isCode_of code) pos with
  | None => Ok (Some 0)
  | Some false => Ok None
  | Some true => match znth code pos with Some op => Ok (Some op) | None => Undef UB_code_oob end
  end.
(** 107-115 GetData; None: ErrInvalidPosition *)
Definition GetData (code : list Z) (pos : Z) : option Z :=
  if IsCodeAt code pos then None else match znth code pos with Some b => Some b | None => Some 0 end.

(** ** go/ct/st/stack.go:85-107 *)
Definition pop (s : state) : res (Z * state) :=
  match rev (ct_stack s) with [] => Undef UB_stack_oob | v :: r => Ok (v, set_stack (rev r) s) end.
Definition push (v : Z) (s : state) : state := set_stack (ct_stack s ++ [v]) s.
Definition get (i : Z) (s : state) : res Z :=
  match znth (ct_stack s) (zlen (ct_stack s) - i - 1) with Some v => Ok v | None => Undef UB_stack_oob end.
Definition set (i v : Z) (s : state) : res state :=
  let j := zlen (ct_stack s) - i - 1 in
  if (0 <=? j) && (j <? zlen (ct_stack s)) then Ok (set_stack (list_upd (ct_stack s) (Z.to_nat j) v) s) else Undef UB_stack_oob.

(** ** go/ct/st/memory.go *)
(** s[start:end] *)
Definition sub (d : list Z) (start end_ : Z) : res (list Z) :=
  if (0 <=? start) && (start <=? end_) && (end_ <=? zlen d) then Ok (slice d start (end_ - start)) else Undef UB_mem_oob.
(** 75-84 Grow *)
Definition Grow (offset size : Z) (m : list Z) : list Z :=
  if size =? 0 then m
  else
    let newSize := u64 (offset + size) in
    if zlen m <? newSize then m ++ zeros (u64 (u64 (SizeInWords newSize * 32) - zlen m)) else m.
(** 55-62 Read *)
Definition Read (offset size : Z) (s : state) : res (list Z * state) :=
  if size =? 0 then Ok ([], s)
  else
    let m := Grow offset size (ct_mem s) in
    do! d <- sub m offset (u64 (offset + size));
    Ok (d, set_mem m s).
(** 65-72 Write; copy stops at the end of the memory *)
Definition Write (data : list Z) (offset : Z) (s : state) : res state :=
  if zlen data =? 0 then Ok s
  else
    let m := Grow offset (zlen data) (ct_mem s) in
    if offset <=? zlen m then Ok (set_mem (splice m offset (firstn (Z.to_nat (zlen m - offset)) data)) s) else Undef UB_mem_oob.
(** math.MaxInt64 *)
Definition maxInt64 : Z := 2 ^ 63 - 1.
(** 135-141 calcMemoryCost *)
Definition calcMemoryCost (size : Z) : Z :=
  let words := size / 32 + (if size mod 32 =? 0 then 0 else 1) in
  s64 (u64 (u64 (words * words) / 512 + 3 * words)).
(** 95-144 ExpansionCosts *)
Definition ExpansionCosts (offset size : Z) (m : list Z) : Z * Z * Z :=
  if negb (isUint64 size) then (maxInt64, 0, 0)
  else if negb (isUint64 offset) then if size =? 0 then (0, 0, 0) else (maxInt64, 0, 0)
  else if size =? 0 then (0, offset, size)
  else if (2 ^ 64 - 1 - size <? offset) || (2 ^ 64 - 1 - offset <? size) then (maxInt64, offset, size)
  else
    let newSize := offset + size in
    if newSize <=? zlen m then (0, offset, size)
    else if 0x1FFFFFFFE0 <? newSize then (maxInt64, offset, size)
    else (s64 (calcMemoryCost newSize - calcMemoryCost (zlen m)), offset, size).

(** go/ct/common/slices.go:13-17 RightPadSlice *)
Definition RightPad (d : list Z) (n : Z) : list Z := firstn (Z.to_nat n) d ++ zeros (n - zlen d).
(** specification.go:2656-2666 sumWithOverflow, for int64; None: overflow *)
Fixpoint sumWithOverflow (res : Z) (values : list Z) : option Z :=
  match values with
  | [] => Some res
  | cur :: values => let next := s64 (res + cur) in if next <? res then None else sumWithOverflow next values
  end.

(** ** go/ct/rlz/conditions.go:25-1056, expressions.go:24-482 *)
(** expressions: of a status (numbered as in state.go:56-62), a flag (1: true), words, gas, sizes and operations *)
Inductive expr : Set := EStatus | EReadOnly | EGas | ESize | EPc | EParam (i : Z) | EOp (e : expr) | EBalanceOfSelf.
Inductive comparison : Set := Eq | Ne | Lt | Le | Gt | Ge.
Inductive cond : Set :=
| Cmp (c : comparison) (e : expr) (v : Z)
| RevisionBounds (lo hi : Z)
| IsCode (e : expr) | IsData (e : expr)
| IsStorageWarm (e : expr) | IsStorageCold (e : expr)
| StorageConfiguration (config : storage_status) (key value : expr)
| TransientNonZero (key : expr) | TransientZero (key : expr)
| AccountIsEmpty (a : expr) | AccountIsNotEmpty (a : expr)
| IsAddressWarm (a : expr) | IsAddressCold (a : expr)
| HasSelfDestructed | HasNotSelfDestructed
| InRange256 (n : expr) | OutOfRange256 (n : expr)
| HasBlobHash (i : expr) | HasNoBlobHash (i : expr).

Definition status_num (st : ct_status) : Z := match st with CtRunning => 0 | CtStopped => 1 | CtReverted => 2 | CtFailed => 3 end.
Definition status_is (a b : storage_status) : bool :=
  match a, b with
  | S_ASSIGNED, S_ASSIGNED | S_ADDED, S_ADDED | S_DELETED, S_DELETED | S_MODIFIED, S_MODIFIED | S_DELETED_ADDED, S_DELETED_ADDED
  | S_MODIFIED_DELETED, S_MODIFIED_DELETED | S_DELETED_RESTORED, S_DELETED_RESTORED | S_ADDED_DELETED, S_ADDED_DELETED
  | S_MODIFIED_RESTORED, S_MODIFIED_RESTORED => true
  | _, _ => false
  end.

(** go/ct/rlz/rules.go:26-35 *)
Record rule : Type := mkRule { r_conditions : list cond; r_effect : state -> res state }.

Section Rules.
Variable tx : tx_context.          (* BlockContext and TransactionContext *)
Variable keccak : list Z -> Z.

(** go/ct/rlz/expressions.go:73, 101, 140, 211, 241, 287-300, 330, 375-380 Eval; [Ok None]: an error, [Undef]: a panic *)
Fixpoint eval (s : state) (e : expr) : res (option Z) :=
  match e with
  | EStatus => Ok (Some (status_num (ct_stat s)))
  | EReadOnly => Ok (Some (if ct_readonly s then 1 else 0))
  | EGas => Ok (Some (ct_gas s))
  | ESize => Ok (Some (zlen (ct_stack s)))
  | EPc => Ok (Some (ct_pc s))
  | EParam i => if zlen (ct_stack s) <=? i then Ok None else do! v <- get i s; Ok (Some v)
  | EOp e =>
    do! pos <- eval s e;
    match pos with
    | None => Ok None
    | Some pos => if negb (isUint64 pos) || (2 ^ 63 - 1 <? pos) then Ok (Some 0) else GetOperation (ct_code s) pos
    end
  | EBalanceOfSelf => Ok (Some (GetBalance (ct_world s) (ct_self s)))
  end.
Definition compare (c : comparison) (a b : Z) : bool :=
  match c with Eq => a =? b | Ne => negb (a =? b) | Lt => a <? b | Le => (a <? b) || (a =? b) | Gt => negb ((a <? b) || (a =? b)) | Ge => negb (a <? b) end.
(** go/ct/rlz/conditions.go:116, 158, 192, 226, 259, 293, 341, 389, 439, 475, 522, 557, 605, 652, 682, 726, 756, 792, 836, 874, 901, 954, 985, 1037 Check *)
Definition check (s : state) (c : cond) : res (option bool) :=
  let on e (k : Z -> bool) : res (option bool) := do! v <- eval s e; match v with None => Ok None | Some v => Ok (Some (k v)) end in
  match c with
  | Cmp c e v => on e (fun x => compare c x v)
  | RevisionBounds lo hi => Ok (Some ((lo <=? ct_revision s) && (ct_revision s <=? hi)))
  | IsCode e => on e (fun p => if negb (isUint64 p) || (2 ^ 63 - 1 <? p) then true else IsCodeAt (ct_code s) p)
  | IsData e => on e (fun p => if negb (isUint64 p) || (2 ^ 63 - 1 <? p) then false else negb (IsCodeAt (ct_code s) p))
  | IsStorageWarm e => on e (fun k => IsWarm (ct_world s) k)
  | IsStorageCold e => on e (fun k => negb (IsWarm (ct_world s) k))
  | StorageConfiguration config key value =>
    do! k <- eval s key;
    match k with
    | None => Ok None
    | Some k => on value (fun v => status_is config (GetStorageStatus (GetOriginal (ct_world s) k) (GetCurrent (ct_world s) k) v))
    end
  | TransientNonZero e => on e (fun k => negb (TGet (ct_world s) k =? 0))
  | TransientZero e => on e (fun k => TGet (ct_world s) k =? 0)
  | AccountIsEmpty e => on e (fun a => AccIsEmpty (ct_world s) (bytes20 a))
  | AccountIsNotEmpty e => on e (fun a => negb (AccIsEmpty (ct_world s) (bytes20 a)))
  | IsAddressWarm e => on e (fun a => AccIsWarm (ct_world s) (bytes20 a))
  | IsAddressCold e => on e (fun a => negb (AccIsWarm (ct_world s) (bytes20 a)))
  | HasSelfDestructed => Ok (Some (w_destructed (ct_world s)))
  | HasNotSelfDestructed => Ok (Some (negb (w_destructed (ct_world s))))
  | InRange256 e => on e (fun n => isUint64 n && ((if 256 <? tx_number tx then tx_number tx - 256 else 0) <=? n) && (n <? tx_number tx))
  | OutOfRange256 e => on e (fun n => negb (isUint64 n && ((if 256 <? tx_number tx then tx_number tx - 256 else 0) <=? n) && (n <? tx_number tx)))
  | HasBlobHash e => on e (fun i => isUint64 i && (i <? zlen (tx_blob_hashes tx)))
  | HasNoBlobHash e => on e (fun i => negb (isUint64 i && (i <? zlen (tx_blob_hashes tx))))
  end.
(** go/ct/rlz/conditions.go:63-71: a conjunction is evaluated from left to right *)
Fixpoint check_all (s : state) (cs : list cond) : res (option bool) :=
  match cs with
  | [] => Ok (Some true)
  | c :: cs => do! r <- check s c; match r with Some true => check_all s cs | _ => Ok r end
  end.

(** ** specification.go *)
Definition AnyKnownRevision : cond := RevisionBounds 0 5.
Definition IsRevision (r : Z) : cond := RevisionBounds r r.
Definition Running : cond := Cmp Eq EStatus 0.
Definition OpIs (op : Z) : cond := Cmp Eq (EOp EPc) op.
Definition ReadOnly (b : bool) : cond := Cmp Eq EReadOnly (if b then 1 else 0).
Definition p0 : expr := EParam 0.
Definition p1 : expr := EParam 1.

(** go/ct/rlz/effect.go:47-56 *)
Definition NoEffect (s : state) : res state := Ok s.
Definition FailEffect (s : state) : res state := Ok (set_gas 0 (set_status CtFailed s)).
(** s.Status = st.Failed; return *)
Definition failed (s : state) : res state := Ok (set_status CtFailed s).
(** if s.Gas < cost { s.Status = st.Failed; return }; s.Gas -= cost *)
Definition pay (cost : Z) (s : state) (k : state -> res state) : res state :=
  if ct_gas s <? cost then failed s else k (set_gas (s64 (ct_gas s - cost)) s).

(** 44-53 *)
Record instruction : Type := mkI { i_op : Z; i_gas : Z; i_pops : Z; i_pushes : Z; i_conditions : list cond; i_effect : state -> res state }.
(** 2320-2331 *)
Definition tooLittleGas (i : instruction) : list rule :=
  [mkRule (i_conditions i ++ [AnyKnownRevision; Running; OpIs (i_op i); Cmp Lt EGas (i_gas i)]) FailEffect].
(** 2333-2344 *)
Definition notEnoughSpace (i : instruction) : list rule :=
  [mkRule (i_conditions i ++ [AnyKnownRevision; Running; OpIs (i_op i); Cmp Ge ESize 1024]) FailEffect].
(** 2346-2357 *)
Definition tooFewElements (i : instruction) : list rule :=
  [mkRule [AnyKnownRevision; Running; OpIs (i_op i); Cmp Lt ESize (i_pops i)] FailEffect].
(** go/ct/rlz/conditions.go:331-335 IsRevisionCondition *)
Definition is_revision_condition (c : cond) : bool := match c with RevisionBounds _ _ => true | _ => false end.
(** 2364-2398 *)
Definition rulesFor (i : instruction) : list rule :=
  (if 0 <? i_gas i then tooLittleGas i else []) ++
  (if 0 <? i_pops i then tooFewElements i else []) ++
  (if i_pops i <? i_pushes i then notEnoughSpace i else []) ++
  [mkRule
    (i_conditions i ++ [Running; OpIs (i_op i); Cmp Ge EGas (i_gas i); Cmp Ge ESize (i_pops i); Cmp Le ESize (1024 - Z.max (i_pushes i - i_pops i) 0)] ++
     (if existsb is_revision_condition (i_conditions i) then [] else [AnyKnownRevision]))
    (fun s => i_effect i (set_pc (u16 (ct_pc s + 1)) (set_gas (s64 (ct_gas s - i_gas i)) s)))].

(** 1843-1871, 1873-1879 *)
Definition binaryOpWithDynamicCost (op costs : Z) (effect : Z -> Z -> Z) (dynamicCost : Z -> Z -> Z) : list rule :=
  rulesFor (mkI op costs 2 1 [] (fun s =>
    do! '(a, s) <- pop s; do! '(b, s) <- pop s; pay (dynamicCost a b) s (fun s => Ok (push (effect a b) s)))).
Definition binaryOp (op costs : Z) (effect : Z -> Z -> Z) : list rule := binaryOpWithDynamicCost op costs effect (fun _ _ => 0).
(** 1881-1903 *)
Definition trinaryOp (op costs : Z) (effect : Z -> Z -> Z -> Z) : list rule :=
  rulesFor (mkI op costs 3 1 [] (fun s => do! '(a, s) <- pop s; do! '(b, s) <- pop s; do! '(c, s) <- pop s; Ok (push (effect a b c) s))).
(** 1905-1923 *)
Definition unaryOp (op costs : Z) (effect : Z -> Z) : list rule :=
  rulesFor (mkI op costs 1 1 [] (fun s => do! '(a, s) <- pop s; Ok (push (effect a) s))).
(** instructions without arguments that push a value *)
Definition valueOp (op costs : Z) (conditions : list cond) (value : state -> Z) : list rule :=
  rulesFor (mkI op costs 0 1 conditions (fun s => Ok (push (value s) s))).

(** 57-62 *)
Definition boolToU256 (b : bool) : Z := if b then 1 else 0.
(** 176-187: 50 gas for each byte of the exponent from its first non zero one on *)
Fixpoint exp_cost_from (i : nat) (bs : list Z) : Z := match bs with [] => 0 | b :: bs => if b =? 0 then exp_cost_from (S i) bs else 50 * (32 - Z.of_nat i) end.
Definition expCost (a e : Z) : Z := exp_cost_from 0 (bytes32 e).
(** 233-238 *)
Definition byteAt (i x : Z) : Z := if 31 <? i then 0 else nth (Z.to_nat i) (bytes32 x) 0.
(** 138-250; uint256 Slt and Sgt compare as signed numbers *)
Definition arithmeticRules : list rule :=
  binaryOp 0x01 3 u_add ++ binaryOp 0x02 5 u_mul ++ binaryOp 0x03 3 u_sub ++
  binaryOp 0x04 5 (fun a b => total (u_div a b)) ++ binaryOp 0x05 5 (divrem0 true) ++
  binaryOp 0x06 5 (fun a b => total (u_mod a b)) ++ binaryOp 0x07 5 (divrem0 false) ++
  trinaryOp 0x08 8 (fun a b n => total (u_addmod a b n)) ++ trinaryOp 0x09 8 (fun a b n => total (u_mulmod a b n)) ++
  binaryOpWithDynamicCost 0x0A 10 u_exp expCost ++ binaryOp 0x0B 5 extendSign ++
  binaryOp 0x10 3 (fun a b => boolToU256 (a <? b)) ++ binaryOp 0x11 3 (fun a b => boolToU256 (b <? a)) ++
  binaryOp 0x12 3 (fun a b => boolToU256 (u_slt a b)) ++ binaryOp 0x13 3 (fun a b => boolToU256 (u_slt b a)) ++
  binaryOp 0x14 3 (fun a b => boolToU256 (a =? b)) ++ unaryOp 0x15 3 (fun a => boolToU256 (a =? 0)) ++
  binaryOp 0x16 3 Z.land ++ binaryOp 0x17 3 Z.lor ++ binaryOp 0x18 3 Z.lxor ++ unaryOp 0x19 3 u_not ++
  binaryOp 0x1A 3 byteAt ++ binaryOp 0x1B 3 shlOf ++ binaryOp 0x1C 3 shrOf ++ binaryOp 0x1D 3 sarOf.

(** 252-284; memory.go:147-160 Hash *)
Definition Hash (offset size : Z) (s : state) : res (Z * state) :=
  let m := Grow offset size (ct_mem s) in
  do! d <- (if 0 <? size then sub m offset (u64 (offset + size)) else Ok []);
  Ok (keccak d, set_mem m s).
Definition sha3Rules : list rule :=
  rulesFor (mkI 0x20 30 2 1 [] (fun s =>
    do! '(offset, s) <- pop s; do! '(size, s) <- pop s;
    let '(cost, offset, size) := ExpansionCosts offset size (ct_mem s) in
    pay cost s (fun s => pay (s64 (u64 (6 * SizeInWords size))) s (fun s =>
    do! '(h, s) <- Hash offset size s; Ok (push h s))))).

(** 286-346 BALANCE, 1106-1169 EXTCODESIZE *)
Definition accountRules (op : Z) (q : ctw -> Z -> Z) : list rule :=
  let effect (mark : bool) (s : state) : res state :=
    do! '(a, s) <- pop s;
    let address := bytes20 a in
    let s := push (q (ct_world s) address) s in
    Ok (if mark then set_world (AccMarkWarm address (ct_world s)) s else s) in
  rulesFor (mkI op 2600 1 1 [RevisionBounds 1 5; IsAddressCold p0] (effect true)) ++
  rulesFor (mkI op 100 1 1 [RevisionBounds 1 5; IsAddressWarm p0] (effect false)) ++
  rulesFor (mkI op 700 1 1 [IsRevision 0] (effect false)).

(** 348-425 *)
Definition memoryRules : list rule :=
  rulesFor (mkI 0x51 3 1 1 [] (fun s =>
    do! '(off, s) <- pop s;
    let '(cost, offset, _) := ExpansionCosts off 32 (ct_mem s) in
    pay cost s (fun s => do! '(d, s) <- Read offset 32 s; Ok (push (setBytes d) s)))) ++
  rulesFor (mkI 0x52 3 2 0 [] (fun s =>
    do! '(off, s) <- pop s; do! '(value, s) <- pop s;
    let '(cost, offset, _) := ExpansionCosts off 32 (ct_mem s) in
    pay cost s (fun s => Write (bytes32 value) offset s))) ++
  rulesFor (mkI 0x53 3 2 0 [] (fun s =>
    do! '(off, s) <- pop s; do! '(value, s) <- pop s;
    let '(cost, offset, _) := ExpansionCosts off 1 (ct_mem s) in
    pay cost s (fun s => Write [nth 31 (bytes32 value) 0] offset s))).

(** 427-487 *)
Definition sloadRules : list rule :=
  let effect (mark : bool) (s : state) : res state :=
    do! '(key, s) <- pop s;
    let s := push (GetCurrent (ct_world s) key) s in
    Ok (if mark then set_world (MarkWarm key (ct_world s)) s else s) in
  rulesFor (mkI 0x54 2100 1 1 [RevisionBounds 1 5; IsStorageCold p0] (effect true)) ++
  rulesFor (mkI 0x54 100 1 1 [RevisionBounds 1 5; IsStorageWarm p0] (effect false)) ++
  rulesFor (mkI 0x54 800 1 1 [IsRevision 0] (effect false)).

(** 2011-2017 *)
Record sstoreOpParams : Set := mkSst { ss_revision : Z; ss_warm : bool; ss_config : storage_status; ss_cost : Z; ss_refund : Z }.
(** 489-549 *)
Definition sstoreParams : list sstoreOpParams :=
  [mkSst 0 false S_ASSIGNED 800 0; mkSst 0 false S_ADDED 20000 0; mkSst 0 false S_ADDED_DELETED 800 19200;
   mkSst 0 false S_DELETED_RESTORED 800 (-10800); mkSst 0 false S_DELETED_ADDED 800 (-15000); mkSst 0 false S_DELETED 5000 15000;
   mkSst 0 false S_MODIFIED 5000 0; mkSst 0 false S_MODIFIED_DELETED 800 15000; mkSst 0 false S_MODIFIED_RESTORED 800 4200;
   mkSst 1 false S_ADDED 22100 0; mkSst 1 false S_DELETED 5000 15000; mkSst 1 false S_MODIFIED 5000 0;
   mkSst 1 true S_ASSIGNED 100 0; mkSst 1 true S_ADDED 20000 0; mkSst 1 true S_ADDED_DELETED 100 19900;
   mkSst 1 true S_DELETED_RESTORED 100 (-12200); mkSst 1 true S_DELETED_ADDED 100 (-15000); mkSst 1 true S_DELETED 2900 15000;
   mkSst 1 true S_MODIFIED 2900 0; mkSst 1 true S_MODIFIED_DELETED 100 15000; mkSst 1 true S_MODIFIED_RESTORED 100 2800] ++
  flat_map (fun rev =>
    [mkSst rev false S_ADDED 22100 0; mkSst rev false S_DELETED 5000 4800; mkSst rev false S_MODIFIED 5000 0;
     mkSst rev true S_ASSIGNED 100 0; mkSst rev true S_ADDED 20000 0; mkSst rev true S_ADDED_DELETED 100 19900;
     mkSst rev true S_DELETED_RESTORED 100 (-2000); mkSst rev true S_DELETED_ADDED 100 (-4800); mkSst rev true S_DELETED 2900 4800;
     mkSst rev true S_MODIFIED 2900 0; mkSst rev true S_MODIFIED_DELETED 100 4800; mkSst rev true S_MODIFIED_RESTORED 100 2800]) [2; 3; 4; 5].
(** 2038-2046, 2081-2089 *)
Definition warmCondition (p : sstoreOpParams) : list cond :=
  if 1 <=? ss_revision p then [if ss_warm p then IsStorageWarm p0 else IsStorageCold p0] else [].
(** 2019-2066 *)
Definition sstoreOpRegular (p : sstoreOpParams) : rule :=
  mkRule ([IsRevision (ss_revision p); Running; OpIs 0x55; Cmp Ge EGas (Z.max 2301 (ss_cost p)); ReadOnly false; Cmp Ge ESize 2;
           StorageConfiguration (ss_config p) p0 p1] ++ warmCondition p)
  (fun s =>
    let s := set_pc (u16 (ct_pc s + 1)) (set_gas (s64 (ct_gas s - ss_cost p)) (set_refund (s64 (ct_refund s + ss_refund p)) s)) in
    do! '(key, s) <- pop s; do! '(value, s) <- pop s;
    let s := set_world (SetCurrent key value (ct_world s)) s in
    Ok (if 1 <=? ct_revision s then set_world (MarkWarm key (ct_world s)) s else s)).
(** 2068-2100 *)
Definition sstoreOpTooLittleGas (p : sstoreOpParams) : rule :=
  mkRule ([IsRevision (ss_revision p); Running; OpIs 0x55; Cmp Lt EGas (ss_cost p); ReadOnly false; Cmp Ge ESize 2;
           StorageConfiguration (ss_config p) p0 p1] ++ warmCondition p) FailEffect.
(** 2102-2129 *)
Definition sstoreOpReadOnlyMode (p : sstoreOpParams) : rule :=
  mkRule [IsRevision (ss_revision p); Running; OpIs 0x55; Cmp Ge EGas (Z.max 2301 (ss_cost p)); ReadOnly true; Cmp Ge ESize 2;
          StorageConfiguration (ss_config p) p0 p1] FailEffect.
(** 551-559 *)
Definition sstoreRules : list rule :=
  flat_map (fun p => [sstoreOpRegular p; sstoreOpTooLittleGas p; sstoreOpReadOnlyMode p]) sstoreParams ++
  tooLittleGas (mkI 0x55 2300 0 0 [] NoEffect) ++ tooFewElements (mkI 0x55 2 2 0 [] NoEffect).

(** 561-687 *)
Definition IsJumpdest (e : expr) : cond := Cmp Eq (EOp e) 0x5B.
Definition IsNotJumpdest (e : expr) : cond := Cmp Ne (EOp e) 0x5B.
Definition jumpRules : list rule :=
  rulesFor (mkI 0x56 8 1 0 [IsCode p0; IsJumpdest p0] (fun s => do! '(target, s) <- pop s; Ok (set_pc (u16 (u64 target)) s))) ++
  [mkRule [AnyKnownRevision; Running; OpIs 0x56; Cmp Ge EGas 8; Cmp Ge ESize 1; IsData p0] FailEffect;
   mkRule [AnyKnownRevision; Running; OpIs 0x56; Cmp Ge EGas 8; Cmp Ge ESize 1; IsCode p0; IsNotJumpdest p0] FailEffect] ++
  rulesFor (mkI 0x57 10 2 0 [IsCode p0; IsJumpdest p0; Cmp Ne p1 0]
    (fun s => do! '(target, s) <- pop s; do! '(_, s) <- pop s; Ok (set_pc (u16 (u64 target)) s))) ++
  [mkRule [AnyKnownRevision; Running; OpIs 0x57; Cmp Ge EGas 10; Cmp Ge ESize 2; Cmp Eq p1 0]
     (fun s => let s := set_gas (s64 (ct_gas s - 10)) s in
               do! '(_, s) <- pop s; do! '(_, s) <- pop s; Ok (set_pc (u16 (ct_pc s + 1)) s));
   mkRule [AnyKnownRevision; Running; OpIs 0x57; Cmp Ge EGas 10; Cmp Ge ESize 2; IsData p0; Cmp Ne p1 0] FailEffect;
   mkRule [AnyKnownRevision; Running; OpIs 0x57; Cmp Ge EGas 10; Cmp Ge ESize 2; IsCode p0; IsNotJumpdest p0; Cmp Ne p1 0] FailEffect].

(** 689-733 *)
Definition machineRules : list rule :=
  valueOp 0x58 2 [] (fun s => u64 (ct_pc s - 1)) ++ valueOp 0x59 2 [] (fun s => u64 (zlen (ct_mem s))) ++
  valueOp 0x5A 2 [] (fun s => u64 (ct_gas s)) ++ rulesFor (mkI 0x5B 1 0 0 [] NoEffect).

(** 735-847 *)
Definition transientRules : list rule :=
  let store (s : state) : res state :=
    do! '(key, s) <- pop s; do! '(value, s) <- pop s; Ok (set_world (TSet key value (ct_world s)) s) in
  rulesFor (mkI 0x5C 100 1 1 [RevisionBounds 5 5; TransientNonZero p0] (fun s => do! '(key, s) <- pop s; Ok (push (TGet (ct_world s) key) s))) ++
  rulesFor (mkI 0x5C 100 1 1 [RevisionBounds 5 5; TransientZero p0] (fun s => do! '(_, s) <- pop s; Ok (push 0 s))) ++
  [mkRule [RevisionBounds 0 4; Running; OpIs 0x5C] FailEffect] ++
  rulesFor (mkI 0x5D 100 2 0 [RevisionBounds 5 5; ReadOnly false; TransientNonZero p0] store) ++
  rulesFor (mkI 0x5D 100 2 0 [RevisionBounds 5 5; ReadOnly false; TransientZero p0] store) ++
  [mkRule [RevisionBounds 0 4; Running; OpIs 0x5D] FailEffect; mkRule [AnyKnownRevision; Running; OpIs 0x5D; ReadOnly true] FailEffect].

(** 849-876, 927-955 and 1925-1980; MaxStackSize is 1024 *)
Fixpoint get_data (n : nat) (pos : Z) (code : list Z) : res (list Z) :=
  match n with
  | O => Ok []
  | S n => match GetData code pos with None => Undef UB_code_oob | Some b => do! r <- get_data n (pos + 1) code; Ok (b :: r) end
  end.
Definition pushOp (n : Z) : list rule :=
  rulesFor (mkI (0x60 + n - 1) 3 0 1 [] (fun s =>
    do! data <- get_data (Z.to_nat n) (ct_pc s) (ct_code s);
    let s := push (setBytes data) s in Ok (set_pc (u16 (ct_pc s + n)) s))).
Definition dupOp (n : Z) : list rule :=
  rulesFor (mkI (0x80 + n - 1) 3 n (n + 1) [] (fun s => do! v <- get (n - 1) s; Ok (push v s))).
Definition swapOp (n : Z) : list rule :=
  rulesFor (mkI (0x90 + n - 1) 3 (n + 1) (n + 1) [] (fun s =>
    do! a <- get 0 s; do! b <- get n s; do! s <- set 0 b s; set n a s)).
Definition upto (lo : Z) (n : nat) : list Z := map (fun i => lo + Z.of_nat i) (seq 0 n).
Definition stackRules : list rule :=
  rulesFor (mkI 0x5F 2 0 1 [RevisionBounds 4 5] (fun s => Ok (push 0 s))) ++
  [mkRule [RevisionBounds 0 3; Running; OpIs 0x5F; Cmp Ge EGas 2; Cmp Lt ESize 1023] FailEffect] ++
  flat_map pushOp (upto 1 32) ++ rulesFor (mkI 0x50 2 1 0 [] (fun s => do! '(_, s) <- pop s; Ok s)) ++
  flat_map dupOp (upto 1 16) ++ flat_map swapOp (upto 1 16).

(** 878-925 *)
Definition mcopyRules : list rule :=
  rulesFor (mkI 0x5E 3 3 0 [RevisionBounds 5 5] (fun s =>
    do! '(dst, s) <- pop s; do! '(src, s) <- pop s; do! '(n, s) <- pop s;
    let '(srcCost, srcOffset, size) := ExpansionCosts src n (ct_mem s) in
    let '(destCost, destOffset, _) := ExpansionCosts dst n (ct_mem s) in
    match sumWithOverflow 0 [Z.max srcCost destCost; s64 (u64 (3 * SizeInWords size))] with
    | None => failed s
    | Some cost => pay cost s (fun s => do! '(value, s) <- Read srcOffset size s; Write value destOffset s)
    end)) ++
  [mkRule [RevisionBounds 0 4; Running; OpIs 0x5E] FailEffect].

(** 957-961, 2131-2196 *)
Fixpoint pops (n : nat) (s : state) : res (list Z * state) :=
  match n with O => Ok ([], s) | S n => do! '(v, s) <- pop s; do! '(r, s) <- pops n s; Ok (v :: r, s) end.
Definition logOp (n : Z) : list rule :=
  let minGas := 375 + 375 * n in
  rulesFor (mkI (0xA0 + n) minGas (2 + n) 0 [ReadOnly false] (fun s =>
    do! '(off, s) <- pop s; do! '(sz, s) <- pop s; do! '(topics, s) <- pops (Z.to_nat n) s;
    let '(cost, offset, size) := ExpansionCosts off sz (ct_mem s) in
    pay cost s (fun s => pay (s64 (u64 (8 * size))) s (fun s =>
    do! '(data, s) <- Read offset size s; Ok (set_world (AddLog data topics (ct_world s)) s))))) ++
  [mkRule [AnyKnownRevision; Running; OpIs (0xA0 + n); Cmp Ge EGas minGas; ReadOnly true; Cmp Ge ESize (2 + n)] FailEffect].

(** 963-1104, 1235-1341, 1400-1422, 1461-1471, 1535-1559: values of the environment *)
Definition environmentRules : list rule :=
  valueOp 0x30 2 [] (fun s => ct_self s) ++ valueOp 0x32 2 [] (fun _ => tx_origin tx) ++ valueOp 0x33 2 [] (fun s => ct_caller s) ++
  valueOp 0x34 2 [] (fun s => ct_value s) ++ valueOp 0x43 2 [] (fun _ => u64 (tx_number tx)) ++
  rulesFor (mkI 0x40 20 1 1 [InRange256 p0] (fun s =>
    do! '(target, s) <- pop s;
    let index := u64 (u64 (tx_number tx) - u64 target) in
    if 256 <=? u64 (index - 1) then Undef UB_target_oob      (* immutable_hash_array.go Get *)
    else Ok (push (hash_at (ct_world s) (u64 (index - 1))) s))) ++
  rulesFor (mkI 0x40 20 1 1 [OutOfRange256 p0] (fun s => do! '(_, s) <- pop s; Ok (push 0 s))) ++
  valueOp 0x41 2 [] (fun _ => tx_coinbase tx) ++ valueOp 0x45 2 [] (fun _ => u64 (tx_gas_limit tx)) ++
  valueOp 0x44 2 [] (fun _ => tx_prev_randao tx) ++ valueOp 0x3A 2 [] (fun _ => tx_gas_price tx) ++
  valueOp 0x42 2 [] (fun _ => u64 (tx_timestamp tx)) ++
  valueOp 0x48 2 [RevisionBounds 2 5] (fun _ => tx_base_fee tx) ++ [mkRule [RevisionBounds 0 1; Running; OpIs 0x48] FailEffect] ++
  rulesFor (mkI 0x49 3 1 1 [RevisionBounds 5 5; HasBlobHash p0] (fun s =>
    do! '(index, s) <- pop s;
    match znth (tx_blob_hashes tx) (u64 index) with Some h => Ok (push h s) | None => Undef UB_target_oob end)) ++
  rulesFor (mkI 0x49 3 1 1 [RevisionBounds 5 5; HasNoBlobHash p0] (fun s => do! '(_, s) <- pop s; Ok (push 0 s))) ++
  [mkRule [RevisionBounds 0 4; Running; OpIs 0x49] FailEffect] ++
  valueOp 0x4A 2 [RevisionBounds 5 5] (fun _ => tx_blob_base_fee tx) ++ [mkRule [RevisionBounds 0 4; Running; OpIs 0x4A] FailEffect] ++
  valueOp 0x46 2 [] (fun _ => tx_chain_id tx) ++ valueOp 0x38 2 [] (fun s => u64 (zlen (ct_code s))) ++
  valueOp 0x36 2 [] (fun s => u64 (zlen (ct_calldata s))) ++
  valueOp 0x47 5 [] (fun s => GetBalance (ct_world s) (ct_self s)) ++ valueOp 0x3D 2 [] (fun s => u64 (zlen (ct_last s))).

(** the part of a byte string from a 256 bit offset on, as 1448-1455, 1523-1529 and 1996-2003 compute it: [offset, offset+size)
    within the string, filled up with zeros *)
Definition clipped (d : list Z) (off size : Z) : res (list Z) :=
  let start := if zlen d <? off then zlen d else u64 off in
  do! b <- sub d start (Z.min (u64 (start + size)) (zlen d)); Ok (RightPad b size).
(** expansion and 3 gas for each word; then the string is written *)
Definition copyOf (dst off n : Z) (data : state -> list Z) (s : state) (k : state -> res state) : res state :=
  let '(cost, destOffset, size) := ExpansionCosts dst n (ct_mem s) in
  match sumWithOverflow 0 [cost; s64 (u64 (3 * SizeInWords size))] with
  | None => failed s
  | Some cost => pay cost s (fun s => do! d <- clipped (data s) off size; do! s <- Write d destOffset s; k s)
  end.
(** 1424-1459 CODECOPY, 1500-1533 CALLDATACOPY *)
Definition copyRules (op : Z) (data : state -> list Z) : list rule :=
  rulesFor (mkI op 3 3 0 [] (fun s =>
    do! '(dst, s) <- pop s; do! '(off, s) <- pop s; do! '(n, s) <- pop s; copyOf dst off n data s NoEffect)).
(** 1473-1498 *)
Definition calldataloadRules : list rule :=
  rulesFor (mkI 0x35 3 1 1 [] (fun s =>
    do! '(off, s) <- pop s;
    if isUint64 off then
      let start := Z.min off (zlen (ct_calldata s)) in
      do! b <- sub (ct_calldata s) start (Z.min (u64 (start + 32)) (zlen (ct_calldata s)));
      Ok (push (setBytes (RightPad b 32)) s)
    else Ok (push 0 s))).
(** 1561-1596 *)
Definition returndatacopyRules : list rule :=
  rulesFor (mkI 0x3E 3 3 0 [] (fun s =>
    do! '(dst, s) <- pop s; do! '(off, s) <- pop s; do! '(n, s) <- pop s;
    let readUntil := u64 (u64 off + u64 n) in
    if negb (isUint64 off) || negb (isUint64 n) || (readUntil <? u64 off) || (zlen (ct_last s) <? readUntil) then failed s
    else
      let '(cost, memOffset, size) := ExpansionCosts dst n (ct_mem s) in
      match sumWithOverflow 0 [cost; s64 (u64 (3 * SizeInWords size))] with
      | None => failed s
      | Some cost => pay cost s (fun s => do! d <- sub (ct_last s) (u64 off) readUntil; Write d memOffset s)
      end)).
(** 1171-1233, 1982-2009 *)
Definition extcodecopyRules : list rule :=
  let effect (mark : bool) (s : state) : res state :=
    do! '(a, s) <- pop s; do! '(dst, s) <- pop s; do! '(off, s) <- pop s; do! '(n, s) <- pop s;
    let address := bytes20 a in
    copyOf dst off n (fun s => GetCode (ct_world s) address) s (fun s => Ok (if mark then set_world (AccMarkWarm address (ct_world s)) s else s)) in
  rulesFor (mkI 0x3C 2600 4 0 [RevisionBounds 1 5; IsAddressCold p0] (effect true)) ++
  rulesFor (mkI 0x3C 100 4 0 [RevisionBounds 1 5; IsAddressWarm p0] (effect false)) ++
  rulesFor (mkI 0x3C 700 4 0 [IsRevision 0] (effect false)).
(** 1343-1398 *)
Definition known : list Z := [0; 1; 2; 3; 4; 5].
Definition both : list bool := [true; false].
Definition extcodehashRules : list rule :=
  flat_map (fun rev => flat_map (fun warm : bool => flat_map (fun empty : bool =>
    rulesFor (mkI 0x3F (if rev <? 1 then 700 else if warm then 100 else 2600) 1 1
      [IsRevision rev; if warm then IsAddressWarm p0 else IsAddressCold p0; if empty then AccountIsEmpty p0 else AccountIsNotEmpty p0]
      (fun s =>
        do! '(a, s) <- pop s;
        let address := bytes20 a in
        let s := push (if AccIsEmpty (ct_world s) address then 0 else GetCodeHash (ct_world s) address) s in
        Ok (if (1 <=? rev) && negb warm then set_world (AccMarkWarm address (ct_world s)) s else s)))) both) both) known.
(** 1598-1648 *)
Definition returnRules : list rule :=
  let effect (st : ct_status) (s : state) : res state :=
    do! '(off, s) <- pop s; do! '(n, s) <- pop s;
    let '(cost, offset, size) := ExpansionCosts off n (ct_mem s) in
    pay cost s (fun s => do! '(d, s) <- Read offset size s; Ok (set_status st (set_ret d s))) in
  rulesFor (mkI 0xF3 0 2 0 [] (effect CtStopped)) ++ rulesFor (mkI 0xFD 0 2 0 [] (effect CtReverted)).

(** 2524-2654 *)
Inductive call_kind : Set := CALL | CALLCODE | STATICCALL | DELEGATECALL.
Definition call_op (k : call_kind) : Z := match k with CALL => 0xF1 | CALLCODE => 0xF2 | DELEGATECALL => 0xF4 | STATICCALL => 0xFA end.
Definition takes_value (k : call_kind) : bool := match k with CALL | CALLCODE => true | _ => false end.
Definition callEffect (addrAccessCost : Z) (op : call_kind) (s : state) : res state :=
  do! '(gas, s) <- pop s; do! '(target, s) <- pop s;
  do! '(value, s) <- (if takes_value op then pop s else Ok (0, s));
  do! '(argsOffset, s) <- pop s; do! '(argsSize, s) <- pop s; do! '(retOffset, s) <- pop s; do! '(retSize, s) <- pop s;
  let '(inCost, argsOffset, argsSize) := ExpansionCosts argsOffset argsSize (ct_mem s) in
  let '(outCost, retOffset, retSize) := ExpansionCosts retOffset retSize (ct_mem s) in
  let memoryExpansionCost := if inCost <? outCost then outCost else inCost in
  let isValueZero := value =? 0 in
  let positiveValueCost := if isValueZero then 0 else 9000 in
  let emptyCost := if negb isValueZero && AccIsEmpty (ct_world s) (bytes20 target) && negb (match op with CALLCODE => true | _ => false end) then 25000 else 0 in
  match sumWithOverflow 0 [memoryExpansionCost; positiveValueCost; emptyCost; addrAccessCost] with
  | None => failed s
  | Some dynamicGas => pay dynamicGas s (fun s =>
    let s := if 1 <=? ct_revision s then set_world (AccMarkWarm (bytes20 target) (ct_world s)) s else s in
    let s := set_mem (Grow retOffset retSize (Grow argsOffset argsSize (ct_mem s))) s in
    let limit := ct_gas s - Z.quot (ct_gas s) 64 in
    let endowment := if isUint64 gas && (gas <? u64 limit) then s64 gas else limit in
    let stipend := if isValueZero then 0 else 2300 in
    let s := set_gas (s64 (ct_gas s + stipend)) s in
    do! '(input, s) <- Read argsOffset argsSize s;
    if negb isValueZero && (GetBalance (ct_world s) (ct_self s) <? value) then Ok (set_last [] (push 0 s))
    else
      let sender := match op with DELEGATECALL => ct_caller s | _ => ct_self s end in
      let recipient := match op with DELEGATECALL | CALLCODE => ct_self s | _ => bytes20 target end in
      let value := match op with DELEGATECALL => ct_value s | _ => value end in
      let kind := match op with
                  | DELEGATECALL => GoDelegateCall
                  | CALLCODE => GoCallCode
                  | STATICCALL => GoStaticCall
                  | CALL => if ct_readonly s then GoStaticCall else GoCall
                  end in
      let '(res, w) := JournalCall kind (mkCallParams sender recipient value input (s64 (endowment + stipend)) 0 (bytes20 target)) (ct_world s) in
      let s := set_world w s in
      do! s <- (if 0 <? retSize then Write (if retSize <? zlen (gr_output res) then firstn (Z.to_nat retSize) (gr_output res) else gr_output res) retOffset s else Ok s);
      let s := set_gas (s64 (ct_gas s - (s64 (endowment + stipend) - gr_gas_left res))) s in
      let s := set_refund (s64 (ct_refund s + gr_gas_refund res)) s in
      Ok (push (if gr_success res then 1 else 0) (set_last (gr_output res) s)))
  end.
(** 2429-2522; in all revisions from London on the fee is that of Berlin (the zero value of staticGas, 2431-2436) *)
Definition getRulesForCall (op : call_kind) (revision : Z) (warm zeroValue static : bool) (fails : bool) : list rule :=
  let staticGas := if revision =? 0 then 700 else 0 in
  let addressAccessCost := if revision =? 0 then 0 else if warm then 100 else 2600 in
  rulesFor (mkI (call_op op) staticGas (if takes_value op then 7 else 6) 1
    ([IsRevision revision; if warm then IsAddressWarm p1 else IsAddressCold p1; ReadOnly static] ++
     (if takes_value op then [Cmp (if zeroValue then Eq else Ne) (EParam 2) 0] else []))
    (if fails then FailEffect else callEffect addressAccessCost op)).
(** 2401-2427 *)
Definition callRules : list rule :=
  flat_map (fun op => flat_map (fun rev => flat_map (fun warm : bool => flat_map (fun static : bool => flat_map (fun zeroValue : bool =>
    getRulesForCall op rev warm zeroValue static (match op with CALL => static && negb zeroValue | _ => false end))
    both) both) both) known) [CALL; CALLCODE; STATICCALL; DELEGATECALL].

(** 2264-2318 *)
Definition selfDestructEffect (s : state) : res state :=
  do! '(b, s) <- pop s;
  let beneficiary := bytes20 b in
  let originatorBalance := GetBalance (ct_world s) (ct_self s) in
  let '(dynamicCost, s) :=
    if (0 <? ct_revision s) && negb (AccIsWarm (ct_world s) beneficiary) then (2600, set_world (AccMarkWarm beneficiary (ct_world s)) s) else (0, s) in
  let dynamicCost := dynamicCost + (if negb (originatorBalance =? 0) && AccIsEmpty (ct_world s) beneficiary then 25000 else 0) in
  pay dynamicCost s (fun s =>
  let refund := if (ct_revision s <? 2) && negb (w_destructed (ct_world s)) then 24000 else 0 in
  let s := set_refund (s64 (ct_refund s + refund)) s in
  Ok (set_status CtStopped (set_world (AddDestruct (ct_self s) beneficiary (ct_world s)) s))).
(** 2198-2262 *)
Definition makeSelfDestructRules (revision : Z) (originatorHasFunds hasSelfDestructed empty warm : bool) : list rule :=
  rulesFor (mkI 0xFF 5000 1 0
    [ReadOnly false; IsRevision revision; Cmp (if originatorHasFunds then Gt else Eq) EBalanceOfSelf 0;
     if hasSelfDestructed then HasSelfDestructed else HasNotSelfDestructed;
     if empty then AccountIsEmpty p0 else AccountIsNotEmpty p0; if warm then IsAddressWarm p0 else IsAddressCold p0]
    selfDestructEffect).
(** 1654-1684 *)
Definition selfdestructRules : list rule :=
  flat_map (fun rev => flat_map (fun funds : bool => flat_map (fun empty : bool => flat_map (fun warm : bool => flat_map (fun destructed : bool =>
    makeSelfDestructRules rev funds destructed empty warm) both) both) both) both) known ++
  rulesFor (mkI 0xFF 5000 1 0 [ReadOnly true; AnyKnownRevision] FailEffect).

(** 1767-1841 *)
Definition createEffect (two : bool) (s : state) : res state :=
  do! '(value, s) <- pop s; do! '(off, s) <- pop s; do! '(n, s) <- pop s;
  let '(memExpCost, offset, size) := ExpansionCosts off n (ct_mem s) in
  let after_init (s : state) (dynamicGas : Z) : res state :=
    do! '(salt, s, total) <- (if two then do! '(salt, s) <- pop s; Ok (salt, s, sumWithOverflow 0 [dynamicGas; s64 (u64 (6 * SizeInWords size))])
                              else Ok (0, s, Some dynamicGas));
    match total with
    | None => failed s
    | Some dynamicGas => pay dynamicGas s (fun s =>
      do! '(input, s) <- Read offset size s;
      if negb (value =? 0) && (GetBalance (ct_world s) (ct_self s) <? value) then Ok (set_last [] (push 0 s))
      else
        let limit := ct_gas s - Z.quot (ct_gas s) 64 in
        let '(res, w) := JournalCall (if two then GoCreate2 else GoCreate) (mkCallParams (ct_self s) 0 value input limit salt 0) (ct_world s) in
        let s := set_world w s in
        let s := set_gas (s64 (ct_gas s - (limit - gr_gas_left res))) s in
        let s := set_refund (s64 (ct_refund s + gr_gas_refund res)) s in
        if gr_success res then Ok (push (gr_created res) (set_last [] s)) else Ok (set_last (gr_output res) (push 0 s)))
    end in
  if 4 <=? ct_revision s then
    if negb (isUint64 n) || (49152 <? size) then failed s
    else match sumWithOverflow 0 [memExpCost; s64 (u64 (2 * SizeInWords size))] with None => failed s | Some c => after_init s c end
  else after_init s memExpCost.
(** 1686-1760 *)
Definition createRules : list rule :=
  rulesFor (mkI 0xF0 32000 3 1 [ReadOnly true] FailEffect) ++ rulesFor (mkI 0xF0 32000 3 1 [ReadOnly false] (createEffect false)) ++
  rulesFor (mkI 0xF5 32000 3 1 [ReadOnly true] FailEffect) ++ rulesFor (mkI 0xF5 32000 4 1 [ReadOnly false] (createEffect true)).

(** go/tosca/vm/opcodes.go:501-660 IsValid *)
Definition IsValid (op : Z) : bool :=
  ((op =? 0x00) || (0x01 <=? op) && (op <=? 0x0B)) || (0x10 <=? op) && (op <=? 0x1D) || (op =? 0x20) || (0x30 <=? op) && (op <=? 0x4A) ||
  (0x50 <=? op) && (op <=? 0xA4) || (0xF0 <=? op) && (op <=? 0xF5) || (op =? 0xFA) || (op =? 0xFD) || (op =? 0xFF).
(** 67-93, 112-120: terminal states, data positions, unknown revisions *)
Definition idleRules : list rule :=
  [mkRule [AnyKnownRevision; Cmp Eq EStatus 1] NoEffect; mkRule [AnyKnownRevision; Cmp Eq EStatus 2] NoEffect; mkRule [AnyKnownRevision; Cmp Eq EStatus 3] NoEffect;
   mkRule [IsData EPc] NoEffect; mkRule [IsRevision 99] FailEffect].
(** 95-110 *)
Definition invalidRules : list rule :=
  flat_map (fun op => if IsValid op then [] else [mkRule [Running; OpIs op; AnyKnownRevision] FailEffect]) (upto 0 256).
(** 122-136 *)
Definition stopRules : list rule :=
  [mkRule [AnyKnownRevision; Running; OpIs 0x00] (fun s => Ok (set_pc (u16 (ct_pc s + 1)) (set_ret [] (set_status CtStopped s))))].
(** 64-1765 getAllRules, in another order *)
Definition instructionRules : list rule :=
  invalidRules ++ stopRules ++ arithmeticRules ++ sha3Rules ++ accountRules 0x31 GetBalance ++ memoryRules ++ sloadRules ++ sstoreRules ++
  jumpRules ++ machineRules ++ transientRules ++ stackRules ++ mcopyRules ++ flat_map logOp (upto 0 5) ++ environmentRules ++
  accountRules 0x3B (fun w a => u64 (zlen (GetCode w a))) ++ extcodecopyRules ++ extcodehashRules ++ copyRules 0x39 (fun s => ct_code s) ++
  calldataloadRules ++ copyRules 0x37 (fun s => ct_calldata s) ++ returndatacopyRules ++ returnRules ++ callRules ++ selfdestructRules ++ createRules.
Definition getAllRules : list rule := idleRules ++ instructionRules.

(** go/ct/spc/specification_map.go:37-83 *)
(** the operation in the first condition code[PC] = op, [None]: noOp *)
Fixpoint ruleOp (cs : list cond) : option Z :=
  match cs with [] => None | Cmp Eq (EOp EPc) op :: _ => Some op | _ :: cs => ruleOp cs end.
Definition sameOp (a b : option Z) : bool := match a, b with None, None => true | Some a, Some b => a =? b | _, _ => false end.
Definition applies (s : state) (r : rule) : res bool :=
  do! v <- check_all s (r_conditions r); Ok (match v with Some true => true | _ => false end).
Fixpoint filterM (s : state) (rs : list rule) : res (list rule) :=
  match rs with [] => Ok [] | r :: rs => do! b <- applies s r; do! rest <- filterM s rs; Ok (if b then r :: rest else rest) end.
Definition GetRulesFor (s : state) : res (list rule) :=
  do! op <- GetOperation (ct_code s) (ct_pc s);
  let key := match op with None => None | Some op => if (ct_revision s =? 99) || negb (status_eqb (ct_stat s) CtRunning) then None else Some op end in
  filterM s (filter (fun r => sameOp (ruleOp (r_conditions r)) key) getAllRules).
End Rules.
