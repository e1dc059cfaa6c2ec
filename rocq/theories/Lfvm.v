(** go/interpreter/lfvm: interpreter.go, instructions.go, super_instructions.go, memory.go, stack.go, gas.go and lfvm.go: the Go
    interpreter for long-form code.

    The stack (stack.go:18-100, an array of 1024 words and a stack pointer) is a list, top first; popping from the empty stack and
    pushing onto a full one are Go panics ([Undef]).  Memory (memory.go) is the list of its bytes and the cost paid so far; slices of
    it are pairs of start and length into the current memory.  Additions of gas (int64) wrap around.  An operation that returns an error yields [Err].  Functions of
    github.com/holiman/uint256 (third party) stand for what they document, with the word operations of Uint256.v.  The hash cache used
    by SHA3 is modelled separately (LfvmCache.v); here the hash is Keccak-256. *)
From Verif Require Import Base Host Uint256 GoAdapter LfvmCode.

(** interpreter.go:21-31 status, except running and failed, which are [Cont] and [Err] below *)
Inductive lstatus : Set := StStopped | StReturned | StReverted | StSelfDestructed.

(** interpreter.go:37-56 context: the execution state *)
Record ctx (W : Type) : Type := mkCtx {
  c_pc : Z; c_gas : Z; c_refund : Z; c_stack : list Z; c_store : list Z; c_cost : Z; c_ret : list Z; c_world : W }.
Arguments mkCtx {W}. Arguments c_pc {W}. Arguments c_gas {W}. Arguments c_refund {W}. Arguments c_stack {W}. Arguments c_store {W}.
Arguments c_cost {W}. Arguments c_ret {W}. Arguments c_world {W}.

(** after an operation: go on, end with a status, or fail with an error *)
Inductive oc (W : Type) : Type := Cont (c : ctx W) | Ends (s : lstatus) (c : ctx W) | Err (c : ctx W).
Arguments Cont {W}. Arguments Ends {W}. Arguments Err {W}.

(** int32(x) *)
Definition i32 (z : Z) : Z := (z + 2 ^ 31) mod 2 ^ 32 - 2 ^ 31.
(** x.IsUint64() *)
Definition isUint64 (v : Z) : bool := v <? 2 ^ 64.
(** go/tosca/utils.go:72-77 *)
Definition sizeInWords (size : Z) : Z :=
  if 2 ^ 64 - 1 - 31 <? size then (2 ^ 64 - 1) / 32 + 1 else (size + 31) / 32.
(** memory.go:31 *)
Definition maxMemoryExpansionSize := 0x1FFFFFFFE0.

Section Lfvm.
Context {W : Type}.
Variable rc : run_context W.       (* params.Context, without Call *)
Variable tx : tx_context.          (* params.BlockParameters and params.TransactionParameters *)
Variable Call : W -> go_kind -> call_params -> option call_result * W. (* params.Context.Call; None: an error (with an empty result) *)
Variable keccak : list Z -> Z.
Variable p : parameters.
Variable code : lcode.             (* the converted code *)

Notation ctx := (ctx W).
Notation oc := (oc W).

Definition set_pc (v : Z) (c : ctx) : ctx := mkCtx v (c_gas c) (c_refund c) (c_stack c) (c_store c) (c_cost c) (c_ret c) (c_world c).
Definition set_gas (v : Z) (c : ctx) : ctx := mkCtx (c_pc c) v (c_refund c) (c_stack c) (c_store c) (c_cost c) (c_ret c) (c_world c).
Definition set_refund (v : Z) (c : ctx) : ctx := mkCtx (c_pc c) (c_gas c) v (c_stack c) (c_store c) (c_cost c) (c_ret c) (c_world c).
Definition set_stack (v : list Z) (c : ctx) : ctx := mkCtx (c_pc c) (c_gas c) (c_refund c) v (c_store c) (c_cost c) (c_ret c) (c_world c).
Definition set_store (v : list Z) (c : ctx) : ctx := mkCtx (c_pc c) (c_gas c) (c_refund c) (c_stack c) v (c_cost c) (c_ret c) (c_world c).
Definition set_cost (v : Z) (c : ctx) : ctx := mkCtx (c_pc c) (c_gas c) (c_refund c) (c_stack c) (c_store c) v (c_ret c) (c_world c).
Definition set_ret (v : list Z) (c : ctx) : ctx := mkCtx (c_pc c) (c_gas c) (c_refund c) (c_stack c) (c_store c) (c_cost c) v (c_world c).
Definition set_world (v : W) (c : ctx) : ctx := mkCtx (c_pc c) (c_gas c) (c_refund c) (c_stack c) (c_store c) (c_cost c) (c_ret c) v.

Definition ok (c : ctx) : res oc := Ok (Cont c).
Definition err (c : ctx) : res oc := Ok (Err c).

(** interpreter.go:58-67 *)
Definition useGas (amount : Z) (c : ctx) (k : ctx -> res oc) : res oc :=
  if (c_gas c <? 0) || (amount <? 0) || (c_gas c <? amount) then err c else k (set_gas (c_gas c - amount) c).
(** interpreter.go:69-73; tosca.Revision: 0 Istanbul, 1 Berlin, 2 London, 3 Paris, 4 Shanghai, 5 Cancun *)
Definition isAtLeast (r : Z) : bool := r <=? p_revision p.

(** ** stack.go *)
(** 58-61 *)
Definition spop (c : ctx) (k : Z -> ctx -> res oc) : res oc :=
  match c_stack c with [] => Undef UB_stack_oob | x :: s => k x (set_stack s c) end.
(** 43-53 push, and pushUndefined followed by setting the new element *)
Definition spush (v : Z) (c : ctx) (k : ctx -> res oc) : res oc :=
  if zlen (c_stack c) <? 1024 then k (set_stack (v :: c_stack c) c) else Undef UB_stack_oob.
(** 63-74 peekN *)
Definition speek (n : Z) (c : ctx) (k : Z -> res oc) : res oc :=
  match znth (c_stack c) n with Some v => k v | None => Undef UB_stack_oob end.
(** writing to an element obtained by peekN *)
Definition sset (n v : Z) (c : ctx) (k : ctx -> res oc) : res oc :=
  if (0 <=? n) && (n <? zlen (c_stack c)) then k (set_stack (list_upd (c_stack c) (Z.to_nat n) v) c) else Undef UB_stack_oob.
(** 83-87 *)
Definition sswap (n : Z) (c : ctx) (k : ctx -> res oc) : res oc :=
  speek n c (fun b => speek 0 c (fun a => sset n a c (fun c => sset 0 b c k))).
(** 89-94 *)
Definition sdup (n : Z) (c : ctx) (k : ctx -> res oc) : res oc := speek n c (fun v => spush v c k).

(** ** memory.go *)
(** 39-66 getExpansionCostsAndSize; None: error *)
Definition getExpansionCostsAndSize (len cost size : Z) : option (Z * Z) :=
  if size <=? len then Some (0, len)
  else
    let words := sizeInWords size in
    let validSize := u64 (words * 32) in
    if validSize <? size then None
    else if maxMemoryExpansionSize <? validSize then None
    else Some (s64 (u64 (u64 (words * words) / 512 + 3 * words)) - cost, validSize).
(** 72-97 *)
Definition expandMemory (offset size : Z) (c : ctx) (k : ctx -> res oc) : res oc :=
  if size =? 0 then k c
  else
    let needed := u64 (offset + size) in
    if needed <? offset then err c
    else if zlen (c_store c) <? needed then
      match getExpansionCostsAndSize (zlen (c_store c)) (c_cost c) needed with
      | None => err c
      | Some (fee, expandedSize) =>
        useGas fee c (fun c => k (set_store (c_store c ++ zeros (expandedSize - zlen (c_store c))) (set_cost (c_cost c + fee) c)))
      end
    else k c.
(** 103-122 getSlice: start and length *)
Definition getSlice (offset size : Z) (c : ctx) (k : Z * Z -> ctx -> res oc) : res oc :=
  if size =? 0 then k (0, 0) c
  else if negb (isUint64 offset) || negb (isUint64 size) then err c
  else
    expandMemory (u64 offset) (u64 size) c (fun c =>
    if u64 offset + u64 size <=? zlen (c_store c) then k (u64 offset, u64 size) c else Undef UB_mem_oob).
(** the bytes of a slice; copy(slice, src) *)
Definition bytesOf (s : Z * Z) (c : ctx) : list Z := slice (c_store c) (fst s) (snd s).
Definition copyInto (s : Z * Z) (src : list Z) (c : ctx) : ctx :=
  set_store (splice (c_store c) (fst s) (firstn (Z.to_nat (snd s)) src)) c.
(** 137-144 set *)
Definition memSet (offset : Z) (value : list Z) (c : ctx) (k : ctx -> res oc) : res oc :=
  getSlice offset (zlen value) c (fun s c => k (copyInto s value c)).

(** v.Bytes32(): 32 bytes, big endian; SetBytes *)
Definition bytes32 (v : Z) : list Z := rev (bytes_le 32 v).
Definition setBytes (bs : list Z) : Z := z_of_be bs.

(** ** instructions.go *)
Definition unary (g : Z -> Z) (c : ctx) : res oc := speek 0 c (fun a => sset 0 (g a) c ok).
Definition binary (g : Z -> Z -> Z) (c : ctx) : res oc := spop c (fun a c => speek 0 c (fun b => sset 0 (g a b) c ok)).
Definition ternary (g : Z -> Z -> Z -> Z) (c : ctx) : res oc :=
  spop c (fun a c => spop c (fun b c => speek 0 c (fun n => sset 0 (g a b n) c ok))).
Definition pushValue (v : Z) (c : ctx) : res oc := spush v c ok.
Definition fits64 (v : Z) : Z := u64 v.     (* SetUint64(uint64(v)) *)

(** 24-30; the status is set by the caller *)
Definition opEndWithResult (s : lstatus) (c : ctx) : res oc :=
  spop c (fun offset c => spop c (fun size c => getSlice offset size c (fun sl c => Ok (Ends s (set_ret (bytesOf sl c) c))))).
(** the argument of the instruction at pc *)
Definition arg_at (i : Z) (k : Z -> res oc) : res oc :=
  match znth code i with Some (_, a) => k a | None => Undef UB_code_oob end.
(** 32-34 *)
Definition opPc (c : ctx) : res oc := arg_at (c_pc c) (fun a => pushValue a c).
(** 36-41 *)
Definition checkJumpDest (c : ctx) : res oc :=
  let t := i32 (c_pc c + 1) in
  if zlen code <=? t then err c
  else match znth code t with
       | None => Undef UB_code_oob
       | Some (op, _) => if op =? 0x5B then ok c else err c
       end.
(** the common part of 43-52 and 54-67 *)
Definition jumpTo (destination : Z) (c : ctx) : res oc :=
  if negb (isUint64 destination) || (2 ^ 31 - 1 <? u64 destination) then err c
  else checkJumpDest (set_pc (i32 (i32 (u64 destination) - 1)) c).
Definition opJump (c : ctx) : res oc := spop c jumpTo.
Definition opJumpi (c : ctx) : res oc :=
  spop c (fun destination c => spop c (fun condition c => if condition =? 0 then ok c else jumpTo destination c)).
(** 69-72 *)
Definition opJumpTo (c : ctx) : res oc := arg_at (c_pc c) (fun a => ok (set_pc (i32 (a - 1)) c)).
(** 74-76 *)
Definition opPop (c : ctx) : res oc := spop c (fun _ c => ok c).

(** the arguments of [n] instructions from pc on: c.code[c.pc : c.pc+n] (Go checks the capacity of the code, the model its length) *)
Definition args_at (n : Z) (c : ctx) (k : list Z -> res oc) : res oc :=
  if (0 <=? c_pc c) && (c_pc c + n <=? zlen code) then k (map snd (slice code (c_pc c) n)) else Undef UB_code_oob.
(** 78-95 *)
Definition opPush (n : Z) (c : ctx) : res oc :=
  let num := n / 2 + n mod 2 in
  args_at num c (fun data =>
  let value := firstn (Z.to_nat n) (flat_map (fun a => [a / 256; a mod 256]) data) in
  spush (setBytes value) c (fun c => ok (set_pc (c_pc c + (num - 1)) c))).
(** 97-104 *)
Definition opPush0 (c : ctx) : res oc := if negb (isAtLeast 4) then err c else pushValue 0 c.
(** 106-110 *)
Definition opPush1 (c : ctx) : res oc := arg_at (c_pc c) (fun a => pushValue (Z.shiftr a 8) c).
(** 112-116 *)
Definition opPush2 (c : ctx) : res oc := arg_at (c_pc c) (fun a => pushValue a c).
(** 118-125 *)
Definition opPush3 (c : ctx) : res oc :=
  args_at 2 c (fun d => spush (Z.lor (Z.shiftl (nth 0 d 0) 8) (Z.shiftr (nth 1 d 0) 8)) c (fun c => ok (set_pc (c_pc c + 1) c))).
(** 127-135 *)
Definition opPush4 (c : ctx) : res oc :=
  args_at 2 c (fun d => spush (Z.lor (Z.shiftl (nth 0 d 0) 16) (nth 1 d 0)) c (fun c => ok (set_pc (c_pc c + 1) c))).
(** 137-147: four limbs of four arguments each *)
Definition limb4 (d : list Z) (i : nat) : Z :=
  Z.lor (Z.lor (Z.lor (Z.shiftl (nth i d 0) 48) (Z.shiftl (nth (i + 1) d 0) 32)) (Z.shiftl (nth (i + 2) d 0) 16)) (nth (i + 3) d 0).
Definition opPush32 (c : ctx) : res oc :=
  args_at 16 c (fun d =>
  let v := limb4 d 0 * 2 ^ 192 + limb4 d 4 * 2 ^ 128 + limb4 d 8 * 2 ^ 64 + limb4 d 12 in
  spush v c (fun c => ok (set_pc (c_pc c + 15) c))).
(** 149-155 *)
Definition opDup (pos : Z) (c : ctx) : res oc := sdup (pos - 1) c ok.
Definition opSwap (pos : Z) (c : ctx) : res oc := sswap pos c ok.
(** 157-169 *)
Definition opMstore (c : ctx) : res oc := spop c (fun addr c => spop c (fun value c => memSet addr (bytes32 value) c ok)).
Definition opMstore8 (c : ctx) : res oc := spop c (fun addr c => spop c (fun value c => memSet addr [u64 value mod 256] c ok)).
(** 171-198; a slice of memory that has been reallocated in between still has the bytes it had *)
Definition opMcopy (c : ctx) : res oc :=
  if negb (isAtLeast 5) then err c
  else
  spop c (fun destAddr c => spop c (fun srcAddr c => spop c (fun size c =>
  getSlice srcAddr size c (fun s c =>
  let data := bytesOf s c in
  useGas (s64 (u64 (3 * sizeInWords (u64 size)))) c (fun c =>
  memSet destAddr data c ok))))).
(** 200-203, memory.go:124-135 readWord *)
Definition opMload (c : ctx) : res oc :=
  speek 0 c (fun addr => getSlice addr 32 c (fun s c => sset 0 (setBytes (bytesOf s c)) c ok)).
(** 205-207 *)
Definition opMsize (c : ctx) : res oc := pushValue (zlen (c_store c)) c.
(** gas.go:239-262 *)
Definition getDynamicCostsForSstore (rev : Z) (st : storage_status) : Z :=
  match st with
  | S_ADDED => 20000
  | S_MODIFIED | S_DELETED => if 1 <=? rev then 2900 else 5000
  | _ => if 1 <=? rev then 100 else 800
  end.
(** gas.go:264-302 *)
Definition getRefundForSstore (rev : Z) (st : storage_status) : Z :=
  match st with
  | S_DELETED | S_MODIFIED_DELETED => if 2 <=? rev then 4800 else 15000
  | S_DELETED_ADDED => if 2 <=? rev then -4800 else -15000
  | S_DELETED_RESTORED =>
    if 2 <=? rev then -4800 + 5000 - 2100 - 100 else if 1 <=? rev then -15000 + 5000 - 2100 - 100 else -15000 + 4200
  | S_ADDED_DELETED => if 1 <=? rev then 19900 else 19200
  | S_MODIFIED_RESTORED => if 1 <=? rev then 5000 - 2100 - 100 else 4200
  | _ => 0
  end.
(** 209-240 *)
Definition opSstore (c : ctx) : res oc :=
  if p_static p then err c
  else if c_gas c <=? 2300 then err c
  else
  spop c (fun key c => spop c (fun value c =>
  let '(cost, w) :=
    if isAtLeast 1 then
      let '(st, w) := rc_access_storage rc (c_world c) (p_recipient p) key in
      (match st with COLD => 2100 | WARM => 0 end, w)
    else (0, c_world c) in
  let '(st, w) := rc_set_storage rc w (p_recipient p) key value in
  useGas (cost + getDynamicCostsForSstore (p_revision p) st) (set_world w c) (fun c =>
  ok (set_refund (s64 (c_refund c + getRefundForSstore (p_revision p) st)) c)))).
(** 242-261 *)
Definition opSload (c : ctx) : res oc :=
  speek 0 c (fun slot =>
  let done c := sset 0 (rc_storage rc (c_world c) (p_recipient p) slot) c ok in
  if isAtLeast 1 then
    let '(st, w) := rc_access_storage rc (c_world c) (p_recipient p) slot in
    useGas (match st with COLD => 2100 | WARM => 100 end) (set_world w c) done
  else done c).
(** 263-294 *)
Definition opTstore (c : ctx) : res oc :=
  if negb (isAtLeast 5) then err c
  else if p_static p then err c
  else spop c (fun key c => spop c (fun value c => ok (set_world (rc_set_transient rc (c_world c) (p_recipient p) key value) c))).
Definition opTload (c : ctx) : res oc :=
  if negb (isAtLeast 5) then err c
  else unary (fun key => rc_transient rc (c_world c) (p_recipient p) key) c.

(** 819-852 getData *)
Definition getData (data : list Z) (offset size : Z) : list Z :=
  if size =? 0 then []
  else if negb (isUint64 offset) || (zlen data <=? u64 offset) then zeros size
  else
    let start := u64 offset in
    let e := u64 (start + size) in
    let e := if zlen data <? e then zlen data else e in
    slice data start (e - start) ++ zeros (size - (e - start)).
(** 309-313 *)
Definition opCallDataload (c : ctx) : res oc := unary (fun off => setBytes (getData (p_input p) off 32)) c.
(** 315-337 *)
Definition genericDataCopy (source : list Z) (c : ctx) : res oc :=
  spop c (fun memOffset c => spop c (fun dataOffset c => spop c (fun length c =>
  useGas (s64 (u64 (3 * sizeInWords (u64 length)))) c (fun c =>
  getSlice memOffset length c (fun s c =>
  ok (copyInto s (getData source dataOffset (u64 length)) c)))))).

(** 339-531: words.  uint256: Div, Mod, SDiv, SMod, AddMod, MulMod with a zero divisor yield zero. *)
Definition total (r : res Z) : Z := match r with Ok v => v | _ => 0 end.
Definition divrem0 (q : bool) (a b : Z) : Z :=
  match u_sdivrem a b with Ok (x, y) => if q then x else y | _ => 0 end.
(** ExtendSign(num, back): back > 30 leaves num unchanged; otherwise the bits above bit 8*back+7 become copies of it *)
Definition extendSign (back num : Z) : Z :=
  if 30 <? back then num
  else
    let bit := back * 8 + 7 in
    let mask := Z.shiftl 1 bit - 1 in
    if Z.testbit num bit then Z.lor num (u_not mask) else Z.land num mask.
(** Byte(n): the n-th byte from the most significant, 0 beyond *)
Definition byteOf (th val : Z) : Z := if th <? 32 then Z.land (Z.shiftr val (8 * (31 - th))) 255 else 0.
(** SRsh: arithmetic shift right *)
Definition sRsh (x n : Z) : Z := if sign_bit x then wrap (Z.shiftr (x - 2 ^ 256) n) else Z.shiftr x n.
(** 465-477 *)
Definition sarOf (a b : Z) : Z :=
  if 256 <? a then if negb (sign_bit b) then 0 else 2 ^ 256 - 1 else sRsh b (u64 a).
(** 441-463 *)
Definition shrOf (a b : Z) : Z := if a <? 256 then u_shr b (u64 a) else 0.
Definition shlOf (a b : Z) : Z := if a <? 256 then u_shl b (u64 a) else 0.
(** 517-524; ByteLen: number of significant bytes *)
Definition opExp (c : ctx) : res oc :=
  spop c (fun base c => speek 0 c (fun exponent =>
  useGas (50 * count_sig exponent) c (fun c => sset 0 (u_exp base exponent) c ok))).
(** 529-555 *)
Definition opSha3 (c : ctx) : res oc :=
  spop c (fun offset c => speek 0 c (fun size =>
  getSlice offset size c (fun s c =>
  let data := bytesOf s c in
  useGas (s64 (u64 (6 * sizeInWords (u64 size)))) c (fun c => sset 0 (keccak data) c ok)))).

(** 867-875 getAccessCost *)
Definition getAccessCost (st : access_status) : Z := match st with COLD => 2600 | WARM => 100 end.
(** the EIP-2929 part of 593-602, 727-752, 861-865 *)
Definition accessAccount (addr : Z) (c : ctx) (k : ctx -> res oc) : res oc :=
  if isAtLeast 1 then
    let '(st, w) := rc_access_account rc (c_world c) addr in useGas (getAccessCost st) (set_world w c) k
  else k c.
(** v.Bytes20() *)
Definition bytes20 (v : Z) : Z := v mod 2 ^ 160.
(** 1138-1144 isEmpty (the same as evmc_interpreter.go:182-186) *)
Definition isEmpty (w : W) (a : Z) : bool := is_empty rc w a.
(** 593-603, 727-752 *)
Definition accountQuery (q : W -> Z -> Z) (c : ctx) : res oc :=
  speek 0 c (fun slot =>
  let address := bytes20 slot in
  accessAccount address c (fun c => sset 0 (q (c_world c) address) c ok)).
(** 605-608 *)
Definition opSelfbalance (c : ctx) : res oc := pushValue (rc_balance rc (c_world c) (p_recipient p)) c.
(** 610-642 *)
Definition sinceRevision (r : Z) (k : ctx -> res oc) (c : ctx) : res oc := if negb (isAtLeast r) then err c else k c.
Definition opBlobHash (c : ctx) : res oc :=
  spop c (fun index c =>
  if isUint64 index && (u64 index <? u64 (zlen (tx_blob_hashes tx)))
  then match znth (tx_blob_hashes tx) (u64 index) with Some h => pushValue h c | None => Undef UB_mem_oob end
  else pushValue 0 c).
(** 644-689 *)
Definition opSelfdestruct (c : ctx) : res oc :=
  if p_static p then err c
  else
  spop c (fun a c =>
  let beneficiary := bytes20 a in
  let '(cost, w) :=
    if isAtLeast 1 then
      let '(st, w) := rc_access_account rc (c_world c) beneficiary in
      (match st with WARM => 0 | COLD => getAccessCost COLD end, w)
    else (0, c_world c) in
  let cost := cost + (if isEmpty w beneficiary && negb (rc_balance rc w (p_recipient p) =? 0) then 25000 else 0) in
  useGas cost (set_world w c) (fun c =>
  let '(destructed, w) := rc_selfdestruct rc (c_world c) (p_recipient p) beneficiary in
  let c := set_world w c in
  Ok (Ends StSelfDestructed (set_refund (s64 (c_refund c + (if destructed && (p_revision p <? 2) then 24000 else 0))) c)))).
(** 696-717 *)
Definition opBlockhash (c : ctx) : res oc :=
  unary (fun top =>
  let requested := u64 top in
  let current := u64 (tx_number tx) in
  if negb (isUint64 top) || (current <=? requested) then 0
  else
    let oldest := current - (if current <? 256 then current else 256) in
    if requested <? oldest then 0 else setBytes (bytes32 (rc_block_hash rc (c_world c) (s64 requested)))) c.

(** 802-817 computeCodeSizeCost; None: error *)
Definition computeCodeSizeCost (size : Z) : option Z := if 2 * 24576 <? size then None else Some (2 * sizeInWords size).
(** 754-798 genericCreate *)
Definition genericCreate (two : bool) (c : ctx) : res oc :=
  if p_static p then err c
  else
  spop c (fun value c => spop c (fun offset c => spop c (fun size c =>
  let body (salt : Z) (c : ctx) :=
    getSlice offset size c (fun s c =>
    let input := bytesOf s c in
    let afterSize (c : ctx) :=
      let afterHash (c : ctx) :=
        if negb (value =? 0) && (rc_balance rc (c_world c) (p_recipient p) <? value)
        then spush 0 (set_ret [] c) ok
        else
          let nestedCallGas := c_gas c - c_gas c / 64 in
          let '(r, w) := Call (c_world c) (if two then GoCreate2 else GoCreate)
                           (mkCallParams (p_recipient p) 0 value input nestedCallGas salt 0) in
          let c := set_world w c in
          let success := match r with Some r => gr_success r | None => false end in
          spush (match r with Some r => if gr_success r then gr_created r else 0 | None => 0 end) c (fun c =>
          let c := set_ret (match r with Some r => if gr_success r then [] else gr_output r | None => [] end) c in
          let c := set_gas (s64 (c_gas c - nestedCallGas + match r with Some r => gr_gas_left r | None => 0 end)) c in
          ok (set_refund (s64 (c_refund c + match r with Some r => gr_gas_refund r | None => 0 end)) c)) in
      if two then useGas (s64 (u64 (6 * sizeInWords (u64 size)))) c afterHash else afterHash c in
    if isAtLeast 4 then
      match computeCodeSizeCost (u64 size) with
      | None => err c
      | Some cost => useGas cost c afterSize
      end
    else afterSize c) in
  if two then spop c body else body 0 c))).

(** 857-865 *)
Definition opExtCodeCopy (c : ctx) : res oc :=
  spop c (fun a c =>
  let address := bytes20 a in
  accessAccount address c (fun c => genericDataCopy (rc_code rc (c_world c) address) c)).

(** 877-1000 genericCall *)
Inductive lkind : Set := KCall | KCallCode | KDelegateCall | KStaticCall.
Definition genericCall (kind : lkind) (c : ctx) : res oc :=
  spop c (fun provided_gas c => spop c (fun addr c =>
  let body (value : Z) (c : ctx) :=
    spop c (fun inOffset c => spop c (fun inSize c => spop c (fun retOffset c => spop c (fun retSize c =>
    let toAddr := bytes20 addr in
    getSlice inOffset inSize c (fun args c =>
    getSlice retOffset retSize c (fun output c =>
    accessAccount toAddr c (fun c =>
    let afterValue (c : ctx) :=
      let afterNew (c : ctx) :=
        let g := c_gas c - c_gas c / 64 in
        let nestedCallGas :=
          if isUint64 provided_gas && (u64 provided_gas <=? 2 ^ 63 - 1) && (s64 (u64 provided_gas) <=? g)
          then s64 (u64 provided_gas) else g in
        let c := set_gas (c_gas c - nestedCallGas) c in
        let nestedCallGas := if negb (value =? 0) then s64 (nestedCallGas + 2300) else nestedCallGas in
        let needsFunds := match kind with KCall | KCallCode => negb (value =? 0) | _ => false end in
        if needsFunds && (rc_balance rc (c_world c) (p_recipient p) <? value)
        then spush 0 c (fun c => ok (set_gas (s64 (c_gas c + nestedCallGas)) (set_ret [] c)))
        else
          let goKind := match kind with
                        | KCall => if p_static p then GoStaticCall else GoCall
                        | KCallCode => GoCallCode | KDelegateCall => GoDelegateCall | KStaticCall => GoStaticCall
                        end in
          let params := match kind with
            | KCall | KStaticCall => mkCallParams (p_recipient p) toAddr value (bytesOf args c) nestedCallGas 0 toAddr
            | KCallCode => mkCallParams (p_recipient p) (p_recipient p) value (bytesOf args c) nestedCallGas 0 toAddr
            | KDelegateCall => mkCallParams (p_sender p) (p_recipient p) (p_value p) (bytesOf args c) nestedCallGas 0 toAddr
            end in
          let '(r, w) := Call (c_world c) goKind params in
          let c := set_world w c in
          let c := match r with Some r => copyInto output (gr_output r) c | None => c end in
          spush (match r with Some r => b2w (gr_success r) | None => 0 end) c (fun c =>
          let c := set_gas (s64 (c_gas c + match r with Some r => gr_gas_left r | None => 0 end)) c in
          let c := set_refund (s64 (c_refund c + match r with Some r => gr_gas_refund r | None => 0 end)) c in
          ok (set_ret (match r with Some r => gr_output r | None => [] end) c)) in
      if match kind with KCall => negb (value =? 0) && isEmpty (c_world c) toAddr | _ => false end
      then useGas 25000 c afterNew else afterNew c in
    if negb (value =? 0) then useGas 9000 c afterValue else afterValue c))))))) in
  match kind with KCall | KCallCode => spop c body | _ => body 0 c end)).
(** 1002-1021 *)
Definition opCall (c : ctx) : res oc :=
  speek 2 c (fun value => if p_static p && negb (value =? 0) then err c else genericCall KCall c).
(** 1027-1053 *)
Definition opReturnDataCopy (c : ctx) : res oc :=
  spop c (fun memOffset c => spop c (fun dataOffset c => spop c (fun length c =>
  if negb (isUint64 dataOffset) || negb (isUint64 length) then err c
  else
  useGas (s64 (u64 (3 * sizeInWords (u64 length)))) c (fun c =>
  let start := u64 dataOffset in
  let e := u64 (start + u64 length) in
  if e <? start then err c
  else if zlen (c_ret c) <? e then err c
  else memSet memOffset (slice (c_ret c) start (e - start)) c ok)))).
(** 1055-1091 *)
Fixpoint popTopics (n : nat) (topics : list Z) (c : ctx) (k : list Z -> ctx -> res oc) : res oc :=
  match n with O => k topics c | S n => spop c (fun t c => popTopics n (topics ++ [t]) c k) end.
Definition opLog (n : nat) (c : ctx) : res oc :=
  if p_static p then err c
  else
  spop c (fun offset c => spop c (fun size c =>
  popTopics n [] c (fun topics c =>
  getSlice offset size c (fun s c =>
  useGas (s64 (u64 (8 * u64 size))) c (fun c =>
  ok (set_world (rc_emit_log rc (c_world c) (p_recipient p) topics (bytesOf s c)) c)))))).

(** ** super_instructions.go *)
(** 21-25 *)
Definition opSwap1_Pop (c : ctx) : res oc := spop c (fun a1 c => sset 0 a1 c ok).
(** 27-30 *)
Definition opSwap2_Pop (c : ctx) : res oc := spop c (fun a1 c => sset 1 a1 c ok).
(** 32-37 *)
Definition opPush1_Push1 (c : ctx) : res oc :=
  arg_at (c_pc c) (fun a => spush (Z.shiftr a 8) c (fun c => spush (Z.land a 0xFF) c ok)).
(** 39-47: math/bits Add64 on the four limbs *)
Definition opPush1_Add (c : ctx) : res oc :=
  arg_at (c_pc c) (fun a =>
  unary (fun t =>
    let l i := u64 (Z.shiftr t (64 * i)) in
    let add x y carry := (u64 (x + y + carry), (x + y + carry) / 2 ^ 64) in
    let '(r0, carry) := add (l 0) a 0 in
    let '(r1, carry) := add (l 1) 0 carry in
    let '(r2, carry) := add (l 2) 0 carry in
    let '(r3, _) := add (l 3) 0 carry in
    r0 + r1 * 2 ^ 64 + r2 * 2 ^ 128 + r3 * 2 ^ 192) c).
(** 49-53 *)
Definition opPush1_Shl (c : ctx) : res oc := arg_at (c_pc c) (fun a => unary (fun t => u_shl t a) c).
(** 55-60 *)
Definition opPush1_Dup1 (c : ctx) : res oc := arg_at (c_pc c) (fun a => spush a c (fun c => spush a c ok)).
(** 62-66 *)
Definition opPush2_Jump (c : ctx) : res oc := arg_at (c_pc c) (fun a => checkJumpDest (set_pc (i32 (a - 1)) c)).
(** 68-76 *)
Definition opPush2_Jumpi (c : ctx) : res oc :=
  spop c (fun condition c => if condition =? 0 then ok c else opPush2_Jump c).
(** 78-83 *)
Definition opSwap2_Swap1 (c : ctx) : res oc :=
  speek 0 c (fun a1 => speek 1 c (fun a2 => speek 2 c (fun a3 =>
  sset 0 a2 c (fun c => sset 1 a3 c (fun c => sset 2 a1 c ok))))).
(** 85-90 *)
Definition opDup2_Mstore (c : ctx) : res oc :=
  spop c (fun value c => speek 0 c (fun offset => memSet offset (bytes32 value) c ok)).
(** 92-100 *)
Definition opDup2_Lt (c : ctx) : res oc := speek 0 c (fun b => speek 1 c (fun a => sset 0 (b2w (a <? b)) c ok)).
(** 102-104 *)
Definition opPopPop (c : ctx) : res oc := spop c (fun _ c => spop c (fun _ c => ok c)).
(** 106-109 *)
Definition opPop_Jump (c : ctx) : res oc := spop c (fun _ c => opJump c).
(** 111-118 *)
Definition opIsZero_Push2_Jumpi (c : ctx) : res oc :=
  spop c (fun condition c => if condition =? 0 then opPush2_Jump c else ok c).
(** 120-127 *)
Definition opSwap2_Swap1_Pop_Jump (c : ctx) : res oc :=
  spop c (fun top c => spop c (fun _ c => speek 0 c (fun trg =>
  sset 0 top (set_pc (i32 (i32 (u64 trg) - 1)) c) checkJumpDest))).
(** 129-135 *)
Definition opSwap1_Pop_Swap2_Swap1 (c : ctx) : res oc :=
  spop c (fun a1 c => speek 1 c (fun a3 => speek 2 c (fun a4 =>
  sset 0 a3 c (fun c => sset 1 a4 c (fun c => sset 2 a1 c ok))))).
(** 137-143 *)
Definition opPop_Swap2_Swap1_Pop (c : ctx) : res oc :=
  spop c (fun _ c => spop c (fun a2 c => speek 1 c (fun a4 => sset 0 a4 c (fun c => sset 1 a2 c ok)))).
Definition andThen (r : res oc) (k : ctx -> res oc) : res oc :=
  match r with Ok (Cont c) => k c | r => r end.
(** 145-150 *)
Definition opPush1_Push4_Dup3 (c : ctx) : res oc :=
  andThen (opPush1 c) (fun c => andThen (opPush4 (set_pc (c_pc c + 1) c)) (fun c => opDup 3 c)).
(** 152-155 *)
Definition opAnd_Swap1_Pop_Swap2_Swap1 (c : ctx) : res oc := andThen (binary u_and c) opSwap1_Pop_Swap2_Swap1.
(** 157-168 *)
Definition opPush1_Push1_Push1_Shl_Sub (c : ctx) : res oc :=
  arg_at (c_pc c) (fun arg1 => arg_at (c_pc c + 1) (fun arg2 =>
  let shift := arg2 mod 256 in
  let value := (Z.land arg1 0xFF) mod 256 in
  let delta := (Z.shiftr arg1 8) mod 256 in
  spush (u_sub (u_shl value shift) delta) c (fun c => ok (set_pc (c_pc c + 1) c)))).

(** ** interpreter.go:196-557: the switch *)
Definition execute_op (op : Z) (c : ctx) : res oc :=
  match op with
  | 0x50 => opPop c
  | 0x5F => opPush0 c
  | 0x60 => opPush1 c | 0x61 => opPush2 c | 0x62 => opPush3 c | 0x63 => opPush4 c | 0x7F => opPush32 c
  | 0x56 => opJump c | 0x5B => ok c | 0x57 => opJumpi c
  | 0x16 => binary u_and c | 0x17 => binary u_or c | 0x18 => binary u_xor c | 0x19 => unary u_not c
  | 0x10 => binary (fun a b => b2w (a <? b)) c
  | 0x11 => binary (fun a b => b2w (b <? a)) c
  | 0x12 => binary (fun a b => b2w (u_slt a b)) c
  | 0x13 => binary (fun a b => b2w (u_slt b a)) c
  | 0x14 => binary (fun a b => b2w (a =? b)) c
  | 0x15 => unary (fun a => b2w (a =? 0)) c
  | 0x01 => binary u_add c | 0x03 => binary u_sub c | 0x02 => binary u_mul c
  | 0x09 => ternary (fun a b n => total (u_mulmod a b n)) c
  | 0x04 => binary (fun a b => total (u_div a b)) c
  | 0x05 => binary (divrem0 true) c
  | 0x06 => binary (fun a b => total (u_mod a b)) c
  | 0x07 => binary (divrem0 false) c
  | 0x08 => ternary (fun a b n => total (u_addmod a b n)) c
  | 0x0A => opExp c
  | 0x1C => binary shrOf c | 0x1B => binary shlOf c | 0x1D => binary sarOf c
  | 0x0B => binary extendSign c | 0x1A => binary byteOf c
  | 0x58 => opPc c
  | 0x33 => pushValue (p_sender p) c
  | 0x35 => opCallDataload c
  | 0x36 => pushValue (fits64 (zlen (p_input p))) c
  | 0x37 => genericDataCopy (p_input p) c
  | 0x51 => opMload c | 0x52 => opMstore c | 0x53 => opMstore8 c | 0x59 => opMsize c | 0x5E => opMcopy c
  | 0x20 => opSha3 c
  | 0x34 => pushValue (p_value p) c
  | 0xF3 => opEndWithResult StReturned c
  | 0xFD => opEndWithResult StReverted c
  | 0x100 => opJumpTo c
  | 0x54 => opSload c | 0x55 => opSstore c | 0x5C => opTload c | 0x5D => opTstore c
  | 0x38 => pushValue (fits64 (zlen (p_code p))) c
  | 0x39 => genericDataCopy (p_code p) c
  | 0x3B => accountQuery (fun w a => fits64 (rc_code_size rc w a)) c
  | 0x3F => accountQuery (fun w a => if isEmpty w a then 0 else rc_code_hash rc w a) c
  | 0x3C => opExtCodeCopy c
  | 0x31 => accountQuery (rc_balance rc) c
  | 0x47 => opSelfbalance c
  | 0x48 => sinceRevision 2 (pushValue (tx_base_fee tx)) c
  | 0x49 => sinceRevision 5 opBlobHash c
  | 0x4A => sinceRevision 5 (pushValue (tx_blob_base_fee tx)) c
  | 0xFF => opSelfdestruct c
  | 0x46 => pushValue (tx_chain_id tx) c
  | 0x5A => pushValue (fits64 (c_gas c)) c
  | 0x44 => pushValue (tx_prev_randao tx) c
  | 0x42 => pushValue (fits64 (tx_timestamp tx)) c
  | 0x43 => pushValue (fits64 (tx_number tx)) c
  | 0x45 => pushValue (fits64 (tx_gas_limit tx)) c
  | 0x3A => pushValue (tx_gas_price tx) c
  | 0xF1 => opCall c | 0xF2 => genericCall KCallCode c | 0xFA => genericCall KStaticCall c | 0xF4 => genericCall KDelegateCall c
  | 0x3D => pushValue (fits64 (zlen (c_ret c))) c
  | 0x3E => opReturnDataCopy c
  | 0x40 => opBlockhash c
  | 0x41 => pushValue (tx_coinbase tx) c
  | 0x32 => pushValue (tx_origin tx) c
  | 0x30 => pushValue (p_recipient p) c
  | 0x00 => Ok (Ends StStopped c)
  | 0xF0 => genericCreate false c | 0xF5 => genericCreate true c
  | 0xA0 => opLog 0 c | 0xA1 => opLog 1 c | 0xA2 => opLog 2 c | 0xA3 => opLog 3 c | 0xA4 => opLog 4 c
  | 0x103 => opSwap2_Swap1_Pop_Jump c
  | 0x104 => opSwap1_Pop_Swap2_Swap1 c
  | 0x105 => opPop_Swap2_Swap1_Pop c
  | 0x106 => opPopPop c
  | 0x107 => opPush1_Shl c
  | 0x108 => opPush1_Add c
  | 0x109 => opPush1_Dup1 c
  | 0x10A => opPush2_Jump c
  | 0x10B => opPush2_Jumpi c
  | 0x10C => opPush1_Push1 c
  | 0x10D => opSwap1_Pop c
  | 0x10E => opPop_Jump c
  | 0x10F => opSwap2_Swap1 c
  | 0x110 => opSwap2_Pop c
  | 0x111 => opDup2_Mstore c
  | 0x112 => opDup2_Lt c
  | 0x113 => opIsZero_Push2_Jumpi c
  | 0x114 => opPush1_Push4_Dup3 c
  | 0x115 => opAnd_Swap1_Pop_Swap2_Swap1 c
  | 0x116 => opPush1_Push1_Push1_Shl_Sub c
  | _ =>
    if (0x64 <=? op) && (op <=? 0x7E) then opPush (op - 0x5F) c       (* PUSH5 ... PUSH31 *)
    else if (0x80 <=? op) && (op <=? 0x8F) then opDup (op - 0x7F) c
    else if (0x90 <=? op) && (op <=? 0x9F) then opSwap (op - 0x8F) c
    else err c
  end.

(** interpreter.go:170-563 steps, one round of the loop *)
Definition lstep (c : ctx) : res oc :=
  if zlen code <=? c_pc c then Ok (Ends StStopped c)
  else match znth code (c_pc c) with
  | None => Undef UB_code_oob
  | Some (op, _) =>
    if negb (checkStackLimits (zlen (c_stack c)) op) then err c
    else useGas (staticGasPrice (p_revision p) op) c (fun c =>
         match execute_op op c with
         | Ok (Cont c) => Ok (Cont (set_pc (i32 (c_pc c + 1)) c))
         | r => r
         end)
  end.
(** the loop; [fuel] rounds *)
Fixpoint lsteps (fuel : nat) (c : ctx) : res oc :=
  match fuel with
  | O => NoFuel
  | S fuel => match lstep c with Ok (Cont c) => lsteps fuel c | r => r end
  end.

(** interpreter.go:124-155 generateResult and 158-164 execute *)
Definition generateResult (o : oc) : go_result :=
  match o with
  | Ends StStopped c | Ends StSelfDestructed c => mkGo true [] (c_gas c) (c_refund c)
  | Ends StReturned c => mkGo true (c_ret c) (c_gas c) (c_refund c)
  | Ends StReverted c => mkGo false (c_ret c) (c_gas c) 0
  | Err _ | Cont _ => mkGo false [] 0 0
  end.
Definition world_of (o : oc) : W := match o with Ends _ c | Err c | Cont c => c_world c end.

(** interpreter.go:88-122 run; every round but those of JUMP_TO, which precede a JUMPDEST, is paid for, so this fuel suffices *)
Definition run_fuel : nat := Z.to_nat (2 * p_gas p + 4).
Definition lrun (w : W) : res (go_result * W) :=
  if zlen code =? 0 then Ok (mkGo true [] (p_gas p) 0, w)
  else do! o <- lsteps run_fuel (mkCtx 0 (p_gas p) 0 [] [] 0 [] w); Ok (generateResult o, world_of o).
End Lfvm.

(** lfvm.go:119-131 Run, without the cache of converted codes (LfvmCache.v); [super]: WithSuperInstructions *)
Definition LfvmRun {W} (rc : run_context W) (tx : tx_context) (Call : W -> go_kind -> call_params -> option call_result * W)
    (keccak : list Z -> Z) (super : bool) (w : W) (p : parameters) : res ((go_result + go_error) * W) :=
  if 5 <? p_revision p then Ok (inr ErrUnsupportedRevision, w)
  else do! code <- convert super (p_code p);
       do! '(r, w) <- lrun rc tx Call keccak p code w; Ok (inl r, w).
