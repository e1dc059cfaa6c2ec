(** Models vm/evmzero/interpreter.h and interpreter.cc: op code implementations, gas and
    memory accounting, [Run], [RunInterpreter], [Interpret], [InterpretNSteps].
    Line numbers without file name refer to interpreter.cc. *)
From Verif Require Import Base Host Uint256 Memory Opcodes.

(** interpreter.h:27-43 RunState *)
Inductive run_state : Set :=
| kRunning | kDone | kReturn | kRevert | kInvalid | kErrorOpcode | kErrorGas
| kErrorStackUnderflow | kErrorStackOverflow | kErrorJump | kErrorReturnDataCopyOutOfBounds
| kErrorCall | kErrorCreate | kErrorStaticCall | kErrorInitCodeSizeExceeded.

(** 63-67 IsSuccess *)
Definition is_success (s : run_state) : bool :=
  match s with kDone | kReturn | kRevert => true | _ => false end.
(** state == RunState::kRunning, 2047 *)
Definition is_running (s : run_state) : bool := match s with kRunning => true | _ => false end.

(** 74 kStopBytePadding *)
Definition kStopBytePadding : Z := 33.
(** interpreter.h:88 kMaxCallDepth *)
Definition kMaxCallDepth : Z := 1024.
(** stack.h:29 kStackSize *)
Definition kStackSize : Z := 1024.

(** 1919-1925 PadCode *)
Definition pad_code (code : list Z) : list Z := code ++ repeat op_STOP (Z.to_nat kStopBytePadding).

(** External functions the interpreter uses: the host (evmc::HostInterface), nested calls
    through the host -- which may re-enter the VM and change the state [SH] it shares with the
    running interpreter (caches, profiler) --, keccak and the SHA3 cache.
    [s_strict] selects strict pointer checks, see Memory.v. *)
Record sys (W SH : Type) : Type := mkSys {
  s_host : host W;
  s_call : W -> SH -> message -> res (cresult * W * SH);
  s_keccak : list Z -> Z;
  s_hash : SH -> list Z -> res (Z * SH);
  s_strict : bool;
}.
Arguments s_host {W SH}. Arguments s_call {W SH}. Arguments s_keccak {W SH}.
Arguments s_hash {W SH}. Arguments s_strict {W SH}.

(** The immutable part of Context (interpreter.h:90-116): message, revision, code, targets,
    is_static_call and whether sha3_cache is non-null. *)
Record env : Set := mkEnv {
  e_msg : message;
  e_rev : revision;
  e_static : bool;
  e_code : list Z;      (* padded_code *)
  e_targets : list Z;   (* valid_jump_targets *)
  e_cache : bool;       (* sha3_cache != nullptr *)
}.

(** 82-92, 115-130: the Context built from InterpreterArgs; [.is_static_call =
    static_cast<bool>(args.message->flags & EVMC_STATIC)] *)
Definition make_env (m : message) (rev : revision) (padded targets : list Z) (cache : bool) : env :=
  mkEnv m rev (negb (Z.land (msg_flags m) EVMC_STATIC =? 0)) padded targets cache.

(** The mutable part of Context that op codes access, plus host state and shared VM state.
    [m_buf]: the stack buffer Stack::Data (stack.h:65-91), None = not initialised.  Index 0 is the
    lowest address, 1024 = end(). *)
Record mst (W SH : Type) : Type := mkMst {
  m_buf : list (option Z);
  m_mem : memory;
  m_ret : list Z;        (* return_data *)
  m_ref : Z;             (* gas_refunds *)
  m_w : W;
  m_sh : SH;
}.
Arguments mkMst {W SH}. Arguments m_buf {W SH}. Arguments m_mem {W SH}. Arguments m_ret {W SH}.
Arguments m_ref {W SH}. Arguments m_w {W SH}. Arguments m_sh {W SH}.

(** 158-172 OpInfo *)
Record op_info : Set := mkInfo {
  i_pops : Z; i_pushes : Z; i_gas : Z; i_len : Z; i_jump : bool; i_nostatic : bool;
  i_since : option revision;
}.
(** 169 GetStackDelta *)
Definition i_delta (i : op_info) : Z := i_pushes i - i_pops i.

Definition info (pops pushes gas : Z) : op_info := mkInfo pops pushes gas 1 false false None.
(** 172-174 NullaryOp, UnaryOp, BinaryOp *)
Definition nullary_op (gas : Z) := info 0 1 gas.
Definition unary_op (gas : Z) := info 1 1 gas.
Definition binary_op (gas : Z) := info 2 1 gas.

(** kInfo of every Impl<...>, 186-1807 *)
Definition op_kinfo (o : opcode) : op_info :=
  match o with
  | STOP => info 0 0 0                                  (* 188 *)
  | ADD => binary_op 3                                  (* 194 *)
  | MUL => binary_op 5                                  (* 204 *)
  | SUB => binary_op 3                                  (* 214 *)
  | DIV | SDIV | MOD | SMOD => binary_op 5              (* 224, 236, 248, 260 *)
  | ADDMOD | MULMOD => info 3 1 8                       (* 272-276, 288-292 *)
  | EXP => binary_op 10                                 (* 304 *)
  | SIGNEXTEND => binary_op 5                           (* 320 *)
  | LT | GT | SLT | SGT | EQ => binary_op 3             (* 345-385 *)
  | ISZERO => unary_op 3                                (* 395 *)
  | AND | OR | XOR => binary_op 3                       (* 405-425 *)
  | NOT => unary_op 3                                   (* 435 *)
  | BYTE | SHL | SHR | SAR => binary_op 3               (* 445-480 *)
  | SHA3 => binary_op 30                                (* 500 *)
  | ADDRESS => nullary_op 2                             (* 530 *)
  | BALANCE => unary_op 0                               (* 540 *)
  | ORIGIN | CALLER | CALLVALUE => nullary_op 2         (* 564, 574, 584 *)
  | CALLDATALOAD => unary_op 3                          (* 594 *)
  | CALLDATASIZE => nullary_op 2                        (* 616 *)
  | CALLDATACOPY => info 3 0 3                          (* 626-630 *)
  | CODESIZE => nullary_op 2                            (* 669 *)
  | CODECOPY => info 3 0 3                              (* 679-683 *)
  | GASPRICE => nullary_op 2                            (* 714 *)
  | EXTCODESIZE => unary_op 0                           (* 724 *)
  | EXTCODECOPY => info 4 0 0                           (* 748-751 *)
  | RETURNDATASIZE => nullary_op 2                      (* 793 *)
  | RETURNDATACOPY => info 3 0 3                        (* 803-807 *)
  | EXTCODEHASH => unary_op 0                           (* 841 *)
  | BLOCKHASH => unary_op 20                            (* 865 *)
  | COINBASE | TIMESTAMP | NUMBER | PREVRANDAO | GASLIMIT | CHAINID => nullary_op 2 (* 895-945 *)
  | SELFBALANCE => nullary_op 5                         (* 955 *)
  | BASEFEE => mkInfo 0 1 2 1 false false (Some London)       (* 965-970 *)
  | BLOBHASH => mkInfo 1 1 3 1 false false (Some Cancun)      (* 980-985 *)
  | BLOBBASEFEE => mkInfo 0 1 2 1 false false (Some Cancun)   (* 1000-1005 *)
  | POP => info 1 0 2                                   (* 1015-1019 *)
  | MCOPY => mkInfo 3 0 3 1 false false (Some Cancun)   (* 1026-1031 *)
  | PUSH0 => mkInfo 0 1 2 1 false false (Some Shanghai) (* 1055-1060 *)
  | MLOAD => unary_op 3                                 (* 1070 *)
  | MSTORE | MSTORE8 => info 2 0 3                      (* 1095-1099, 1122-1126 *)
  | SLOAD => unary_op 0                                 (* 1145 *)
  | SSTORE => mkInfo 2 0 0 1 false true None            (* 1169-1173 *)
  | JUMP => mkInfo 1 0 8 1 true false None              (* 1263-1268 *)
  | JUMPI => mkInfo 2 0 10 1 true false None            (* 1275-1280 *)
  | PC | MSIZE | GAS => nullary_op 2                    (* 1290, 1300, 1310 *)
  | JUMPDEST => info 0 0 1                              (* 1320-1324 *)
  | TLOAD => mkInfo 1 1 100 1 false false (Some Cancun) (* 1331-1336 *)
  | TSTORE => mkInfo 2 0 100 1 false true (Some Cancun) (* 1348-1354 *)
  | PUSHn n => mkInfo 0 1 3 (1 + n) false false None    (* 1366-1371 *)
  | DUPn n => info n (n + 1) 3                          (* 1411-1415 *)
  | SWAPn n => info (n + 1) (n + 1) 3                   (* 1430-1434 *)
  | LOGn n => mkInfo (n + 2) 0 (375 + 375 * n) 1 false true None   (* 1449-1454 *)
  | RETURN | REVERT => info 2 0 0                       (* 1489-1492 *)
  | INVALID => info 0 0 0                               (* 1520 *)
  | SELFDESTRUCT => mkInfo 1 0 5000 1 false true None   (* 1527-1532 *)
  | CREATE => mkInfo 3 1 32000 1 false true None        (* 1564-1569 *)
  | CREATE2 => mkInfo 4 1 32000 1 false true None       (* 1564-1569 *)
  | CALL | CALLCODE => info 7 1 0                       (* 1659-1662 *)
  | DELEGATECALL | STATICCALL => info 6 1 0             (* 1659-1662 *)
  end.

(** 1900-1910 calc_memory_cost *)
Definition calc_memory_cost (size : Z) : res Z :=
  let '(ovf, size) := add_overflow_u64 size 31 in
  if ovf then Ok kMaxGas
  else
    let words := s64 (size / 32) in
    let '(ovf, sq) := mul_overflow_i64 words words in
    if ovf then Ok kMaxGas
    else
      do! linear <- i64 (3 * words);
      i64 (Z.quot sq 512 + linear).

(** 1878-1917 Context::MemoryExpansionCost: (gas_cost, offset, size) for a memory of
    [msize] bytes *)
Definition memory_expansion_cost (msize offset_u256 size_u256 : Z) : res (Z * Z * Z) :=
  if (kU64Max <? size_u256) || ((kU64Max <? offset_u256) && negb (size_u256 =? 0))
  then Ok (kMaxGas, 0, 0)
  else
    let offset := u64 offset_u256 in
    let size := u64 size_u256 in
    if size =? 0 then Ok (0, offset, size)
    else
      let '(ovf, new_size) := add_overflow_u64 offset size in
      if ovf then Ok (kMaxGas, offset, size)
      else if new_size <=? msize then Ok (0, offset, size)
      else
        do! c1 <- calc_memory_cost new_size;
        do! c0 <- calc_memory_cost msize;
        do! cost <- i64 (c1 - c0);
        Ok (cost, offset, size).

(** 507 etc.: static_cast<int64_t>((size + 31) / 32) *)
Definition word_size (size : Z) : Z := s64 (u64 (size + 31) / 32).

(** 176-179 OpResult *)
Record op_result : Set := mkOpRes { o_state : run_state; o_dyn : Z }.

Section Ops.
Context {W SH : Type}.
Variable S : sys W SH.
Notation H := (s_host S).
Notation mst := (mst W SH).

(** State passing with undefined behaviour: the style in which op codes are modelled. *)
Definition M (A : Type) : Type := mst -> res (A * mst).
Definition ret {A} (a : A) : M A := fun s => Ok (a, s).
Definition bind {A B} (m : M A) (k : A -> M B) : M B :=
  fun s => match m s with
           | Ok (a, s') => k a s'
           | Undef u => Undef u
           | NoFuel => NoFuel
           end.
Definition lift {A} (r : res A) : M A := fun s => do! a <- r; Ok (a, s).

Notation "'let!' x <- m ; k" := (bind m (fun x => k))
  (at level 200, x name, m at level 100, k at level 200, right associativity).
Notation "'let!' ' p <- m ; k" := (bind m (fun p => k))
  (at level 200, p pattern, m at level 100, k at level 200, right associativity).
Notation "m ;; k" := (bind m (fun _ => k)) (at level 100, k at level 200, right associativity).

Definition set_buf (b : list (option Z)) (s : mst) : mst :=
  mkMst b (m_mem s) (m_ret s) (m_ref s) (m_w s) (m_sh s).
Definition set_mem (m : memory) (s : mst) : mst :=
  mkMst (m_buf s) m (m_ret s) (m_ref s) (m_w s) (m_sh s).
Definition set_ret (r : list Z) (s : mst) : mst :=
  mkMst (m_buf s) (m_mem s) r (m_ref s) (m_w s) (m_sh s).
Definition set_ref (r : Z) (s : mst) : mst :=
  mkMst (m_buf s) (m_mem s) (m_ret s) r (m_w s) (m_sh s).
Definition set_w (w : W) (s : mst) : mst :=
  mkMst (m_buf s) (m_mem s) (m_ret s) (m_ref s) w (m_sh s).
Definition set_sh (h : SH) (s : mst) : mst :=
  mkMst (m_buf s) (m_mem s) (m_ret s) (m_ref s) (m_w s) h.

(** Pointer accesses [top[i]]: reading and writing a stack slot. *)
Definition rd (top i : Z) : M Z := fun s =>
  match znth (m_buf s) (top + i) with
  | Some (Some v) => Ok (v, s)
  | Some None => Undef UB_stack_uninit
  | None => Undef UB_stack_oob
  end.
Definition wr (top i v : Z) : M unit := fun s =>
  if (0 <=? top + i) && (top + i <? zlen (m_buf s))
  then Ok (tt, set_buf (list_upd (m_buf s) (Z.to_nat (top + i)) (Some v)) s)
  else Undef UB_stack_oob.

Definition get_w : M W := fun s => Ok (m_w s, s).
Definition put_w (w : W) : M unit := fun s => Ok (tt, set_w w s).
Definition get_mem : M memory := fun s => Ok (m_mem s, s).
Definition put_mem (m : memory) : M unit := fun s => Ok (tt, set_mem m s).
Definition get_ret : M (list Z) := fun s => Ok (m_ret s, s).
Definition put_ret (r : list Z) : M unit := fun s => Ok (tt, set_ret r s).
(** ctx.gas_refunds += d (signed 64 bit) *)
Definition add_ref (d : Z) : M unit := fun s =>
  do! r <- i64 (m_ref s + d); Ok (tt, set_ref r s).

(** Host functions (evmc::HostContext) *)
Definition host_access_account (a : Z) : M access_status := fun s =>
  let '(r, w) := h_access_account H (m_w s) a in Ok (r, set_w w s).
Definition host_access_storage (a k : Z) : M access_status := fun s =>
  let '(r, w) := h_access_storage H (m_w s) a k in Ok (r, set_w w s).
Definition host_set_storage (a k v : Z) : M storage_status := fun s =>
  let '(r, w) := h_set_storage H (m_w s) a k v in Ok (r, set_w w s).
Definition host_selfdestruct (a b : Z) : M bool := fun s =>
  let '(r, w) := h_selfdestruct H (m_w s) a b in Ok (r, set_w w s).
Definition host_call (m : message) : M cresult := fun s =>
  do! '(r, w, sh) <- s_call S (m_w s) (m_sh s) m;
  Ok (r, mkMst (m_buf s) (m_mem s) (m_ret s) (m_ref s) w sh).

(** Context::MemoryExpansionCost on the current memory *)
Definition mem_cost (offset size : Z) : M (Z * Z * Z) := fun s =>
  do! r <- memory_expansion_cost (mem_size (m_mem s)) offset size; Ok (r, s).

(** Memory member functions on ctx.memory *)
Definition memory_get_span (offset size : Z) : M (list Z) := fun s =>
  do! '(bs, m) <- mem_get_span (s_strict S) (m_mem s) offset size; Ok (bs, set_mem m s).
Definition memory_read_from (buf : list Z) (offset : Z) : M unit := fun s =>
  do! m <- mem_read_from (s_strict S) (m_mem s) buf offset; Ok (tt, set_mem m s).
Definition memory_read_from_with_size (buf : list Z) (offset size : Z) : M unit := fun s =>
  do! m <- mem_read_from_with_size (s_strict S) (m_mem s) buf offset size; Ok (tt, set_mem m s).
Definition memory_write_to (size offset : Z) : M (list Z) := fun s =>
  do! '(bs, m) <- mem_write_to (s_strict S) (m_mem s) size offset; Ok (bs, set_mem m s).
Definition memory_mem_copy (dest src size : Z) : M unit := fun s =>
  do! m <- mem_copy (s_strict S) (m_mem s) dest src size; Ok (tt, set_mem m s).
Definition memory_grow (offset size : Z) : M unit := fun s =>
  do! m <- mem_grow (m_mem s) offset size; Ok (tt, set_mem m s).

(** return {} / return {.dynamic_gas_costs = g} / return {.state = st} *)
Definition cont : M op_result := ret (mkOpRes kRunning 0).
Definition dyn (g : Z) : M op_result := ret (mkOpRes kRunning g).
Definition fail (st : run_state) : M op_result := ret (mkOpRes st 0).

Variable e : env.
Notation msg := (e_msg e).

(** std::span(...).subspan(off) when offset < size, else the empty span (600-604, 654-658, 701-704) *)
Definition subspan_or_empty (data : list Z) (limit off : Z) : M (list Z) :=
  if off <? limit then
    if u64 off <=? zlen data then ret (skipn (Z.to_nat (u64 off)) data) else lift (Undef UB_span_oob)
  else ret [].

(** Ops of the form top[1] = f(top[0], top[1]) : 192-497 *)
Definition op_binary (f : Z -> Z -> Z) (top : Z) : M op_result :=
  let! a <- rd top 0; let! b <- rd top 1; wr top 1 (f a b);; cont.
(** Ops of the form top[0] = f(top[0]) : 393-442 *)
Definition op_unary (f : Z -> Z) (top : Z) : M op_result :=
  let! a <- rd top 0; wr top 0 (f a);; cont.
(** Ops of the form top[-1] = v *)
Definition op_push (v : Z) (top : Z) : M op_result := wr top (-1) v;; cont.

(** 222-232 DIV *)
Definition op_div (top : Z) : M op_result :=
  let! b <- rd top 1;
  if b =? 0 then cont
  else let! a <- rd top 0; let! q <- lift (u_div a b); wr top 1 q;; cont.
(** 234-244 SDIV *)
Definition op_sdiv (top : Z) : M op_result :=
  let! b <- rd top 1;
  if b =? 0 then cont
  else let! a <- rd top 0; let! qr <- lift (u_sdivrem a b); wr top 1 (fst qr);; cont.
(** 246-256 MOD *)
Definition op_mod (top : Z) : M op_result :=
  let! b <- rd top 1;
  if b =? 0 then cont
  else let! a <- rd top 0; let! r <- lift (u_mod a b); wr top 1 r;; cont.
(** 258-268 SMOD *)
Definition op_smod (top : Z) : M op_result :=
  let! b <- rd top 1;
  if b =? 0 then cont
  else let! a <- rd top 0; let! qr <- lift (u_sdivrem a b); wr top 1 (snd qr);; cont.
(** 270-284 ADDMOD *)
Definition op_addmod (top : Z) : M op_result :=
  let! m <- rd top 2;
  if m =? 0 then cont
  else let! a <- rd top 0; let! b <- rd top 1; let! r <- lift (u_addmod a b m); wr top 2 r;; cont.
(** 286-300 MULMOD *)
Definition op_mulmod (top : Z) : M op_result :=
  let! m <- rd top 2;
  if m =? 0 then cont
  else let! a <- rd top 0; let! b <- rd top 1; let! r <- lift (u_mulmod a b m); wr top 2 r;; cont.

(** 302-316 EXP *)
Definition op_exp (top gas : Z) : M op_result :=
  let! a <- rd top 0;
  let! exponent <- rd top 1;
  let! dynamic_gas <- lift (i64 (50 * count_significant_bytes exponent));
  if gas <? dynamic_gas then dyn dynamic_gas
  else wr top 1 (u_exp a exponent);; dyn dynamic_gas.

(** 318-341 SIGNEXTEND *)
Definition signextend (b value : Z) : Z :=
  let leading_byte_index := if 31 <? b then 31 else u8 b in
  let is_negative := negb (Z.land (byte_le value leading_byte_index) 128 =? 0) in
  if is_negative
  then u_or (u_shl kUint256Max (8 * (leading_byte_index + 1))) value
  else u_and (u_shr kUint256Max (8 * (31 - leading_byte_index))) value.

(** 443-456 BYTE *)
Definition byte_op (i v : Z) : Z := if i <? 32 then byte_le v (31 - u8 i) else 0.

(** 478-496 SAR *)
Definition sar (n v : Z) : Z :=
  let is_negative := negb (Z.land (byte_le v 31) 128 =? 0) in
  if n <=? 255 then
    let r := u_shr v n in
    if is_negative then u_or r (u_shl kUint256Max (u_sub 255 n)) else r
  else if is_negative then kUint256Max else 0.

(** 498-526 SHA3 *)
Definition op_sha3 (top gas : Z) : M op_result :=
  let! offset_u256 <- rd top 0;
  let! size_u256 <- rd top 1;
  let! '(mcost, offset, size) <- mem_cost offset_u256 size_u256;
  let minimum_word_size := word_size size in
  let '(o1, g1) := mul_overflow_i64 6 minimum_word_size in
  let '(o2, dynamic_gas) := if o1 then (true, g1) else add_overflow_i64 g1 mcost in
  if o2 || (gas <? dynamic_gas) then fail kErrorGas
  else
    let! memory_span <- memory_get_span offset size;
    if e_cache e then
      let! h <- (fun s => do! '(h, sh) <- s_hash S (m_sh s) memory_span; Ok (h, set_sh sh s));
      wr top 1 h;; dyn dynamic_gas
    else wr top 1 (s_keccak S memory_span);; dyn dynamic_gas.

(** 545-552, 729-736, 766-773, 846-853: cost of touching an account *)
Definition account_access_cost (address : Z) : M Z :=
  if rev_ge (e_rev e) Berlin then
    let! a <- host_access_account address;
    ret (if is_warm a then 100 else 2600)
  else ret 700.

(** 538-560 BALANCE, 722-744 EXTCODESIZE, 839-861 EXTCODEHASH: the same code around a
    different host query [f] *)
Definition op_account_query (f : W -> Z -> Z) (top gas : Z) : M op_result :=
  let! t0 <- rd top 0;
  let address := to_address t0 in
  let! dynamic_gas <- account_access_cost address;
  if gas <? dynamic_gas then dyn dynamic_gas
  else let! w <- get_w; wr top 0 (f w address);; dyn dynamic_gas.

(** ORIGIN 562, GASPRICE 712, COINBASE 893, TIMESTAMP 903, NUMBER 913, PREVRANDAO 923,
    GASLIMIT 933, CHAINID 943, BASEFEE 963, BLOBBASEFEE 998 *)
Definition op_tx (f : tx_context -> Z) (top : Z) : M op_result :=
  let! w <- get_w; wr top (-1) (f (h_tx_context H w));; cont.

(** 592-612 CALLDATALOAD *)
Definition op_calldataload (top : Z) : M op_result :=
  let! offset_u256 <- rd top 0;
  let! input_view <- subspan_or_empty (msg_input msg) (zlen (msg_input msg)) offset_u256;
  let n := Z.min (zlen input_view) 32 in
  let value := firstn (Z.to_nat n) input_view ++ zeros (32 - n) in
  wr top 0 (z_of_be value);; cont.

(** 642-644, 695-697: overflow checked cost of copying *)
Definition copy_cost (size mcost : Z) : bool * Z :=
  let '(o1, g1) := mul_overflow_i64 3 (word_size size) in
  if o1 then (true, g1) else add_overflow_i64 g1 mcost.

(** 624-665 CALLDATACOPY *)
Definition op_calldatacopy (top gas : Z) : M op_result :=
  let! memory_offset_u256 <- rd top 0;
  let! data_offset_u256 <- rd top 1;
  let! size_u256 <- rd top 2;
  let! '(mcost, memory_offset, size) <- mem_cost memory_offset_u256 size_u256;
  let '(overflowed, dynamic_gas) := copy_cost size mcost in
  if overflowed || (gas <? dynamic_gas) then let! g <- lift (i64 (gas + 1)); dyn g
  else
    let! data_view <- subspan_or_empty (msg_input msg) (zlen (msg_input msg)) data_offset_u256;
    memory_read_from_with_size data_view memory_offset size;;
    dyn dynamic_gas.

(** padded_code.size() - kStopBytePadding as size_t (672, 702) *)
Definition code_size : Z := u64 (zlen (e_code e) - kStopBytePadding).

(** 677-710 CODECOPY *)
Definition op_codecopy (top gas : Z) : M op_result :=
  let! memory_offset_u256 <- rd top 0;
  let! code_offset_u256 <- rd top 1;
  let! size_u256 <- rd top 2;
  let! '(mcost, memory_offset, size) <- mem_cost memory_offset_u256 size_u256;
  let '(overflowed, dynamic_gas) := copy_cost size mcost in
  if overflowed || (gas <? dynamic_gas) then fail kErrorGas
  else
    let! code_view <- subspan_or_empty (e_code e) code_size code_offset_u256;
    memory_read_from_with_size code_view memory_offset size;;
    dyn dynamic_gas.

(** 746-789 EXTCODECOPY.  The span is filled by copy_code from its start and by zeros behind. *)
Definition op_extcodecopy (top gas : Z) : M op_result :=
  let! t0 <- rd top 0;
  let address := to_address t0 in
  let! memory_offset_u256 <- rd top 1;
  let! code_offset_u256 <- rd top 2;
  let! size_u256 <- rd top 3;
  let! '(mcost, memory_offset, size) <- mem_cost memory_offset_u256 size_u256;
  if gas <? mcost then dyn mcost
  else
    let minimum_word_size := word_size size in
    let! address_access_cost <- account_access_cost address;
    let! c <- lift (i64 (3 * minimum_word_size));
    let! c' <- lift (i64 (c + address_access_cost));
    let! dynamic_gas <- lift (i64 (mcost + c'));
    if gas <? dynamic_gas then dyn dynamic_gas
    else
      if 0 <? size then
        let! _ <- memory_get_span memory_offset size;
        let! w <- get_w;
        let written :=
          if code_offset_u256 <=? kU64Max
          then h_copy_code H w address (u64 code_offset_u256) size else [] in
        let! m <- get_mem;
        if zlen written <=? size then
          let! m' <- lift (mem_write m memory_offset (written ++ zeros (size - zlen written)));
          put_mem m';; dyn dynamic_gas
        else lift (Undef UB_span_oob)
      else dyn dynamic_gas.

(** 801-836 RETURNDATACOPY *)
Definition op_returndatacopy (top gas : Z) : M op_result :=
  let! memory_offset_u256 <- rd top 0;
  let! return_data_offset_u256 <- rd top 1;
  let! size_u256 <- rd top 2;
  let! '(mcost, memory_offset, size) <- mem_cost memory_offset_u256 size_u256;
  if gas <? mcost then dyn mcost
  else
    let! c <- lift (i64 (3 * word_size size));
    let! dynamic_gas <- lift (i64 (mcost + c));
    if gas <? dynamic_gas then dyn dynamic_gas
    else
      let! return_data <- get_ret;
      let end_u256 := u_add return_data_offset_u256 size_u256 in
      let carry := 2 ^ 256 <=? return_data_offset_u256 + size_u256 in
      if carry || (zlen return_data <? end_u256) then fail kErrorReturnDataCopyOutOfBounds
      else
        let! return_data_view <-
          (if u64 return_data_offset_u256 <=? zlen return_data
           then ret (skipn (Z.to_nat (u64 return_data_offset_u256)) return_data)
           else lift (Undef UB_span_oob));
        memory_read_from_with_size return_data_view memory_offset size;;
        dyn dynamic_gas.

(** 863-890 BLOCKHASH *)
Definition op_blockhash (top : Z) : M op_result :=
  let! t0 <- rd top 0;
  if 2 ^ 63 - 1 <? t0 then wr top 0 0;; cont
  else
    let number := t0 in
    let! w <- get_w;
    let upper := tx_number (h_tx_context H w) in
    let! lower <- (if upper <? 257 then ret 0 else lift (i64 (upper - 256)));
    if (lower <=? number) && (number <? upper)
    then wr top 0 (h_block_hash H w number);; cont
    else wr top 0 0;; cont.

(** 953-960 SELFBALANCE *)
Definition op_selfbalance (top : Z) : M op_result :=
  let! w <- get_w; wr top (-1) (h_get_balance H w (msg_recipient msg));; cont.

(** 978-995 BLOBHASH *)
Definition op_blobhash (top : Z) : M op_result :=
  let! w <- get_w;
  let tx := h_tx_context H w in
  let! t0 <- rd top 0;
  if t0 <? zlen (tx_blob_hashes tx) then
    match znth (tx_blob_hashes tx) (s64 t0) with
    | Some h => wr top 0 h;; cont
    | None => lift (Undef UB_span_oob)
    end
  else wr top 0 0;; cont.

(** 1024-1050 MCOPY *)
Definition op_mcopy (top gas : Z) : M op_result :=
  let! dest_offset_u256 <- rd top 0;
  let! src_offset_u256 <- rd top 1;
  let! size_u256 <- rd top 2;
  let! '(cost_dest, dest_offset, size) <- mem_cost dest_offset_u256 size_u256;
  let! '(cost_src, src_offset, _) <- mem_cost src_offset_u256 size_u256;
  let! words_copied_cost <- lift (i64 (3 * word_size size));
  let '(ovf, dynamic_gas) := add_overflow_i64 words_copied_cost (Z.max cost_dest cost_src) in
  if ovf then fail kErrorGas
  else if gas <? dynamic_gas then dyn dynamic_gas
  else memory_mem_copy dest_offset src_offset size;; dyn dynamic_gas.

(** 1068-1090 MLOAD (little endian machine) *)
Definition op_mload (top gas : Z) : M op_result :=
  let! offset_u256 <- rd top 0;
  let! '(mcost, offset, _) <- mem_cost offset_u256 32;
  if gas <? mcost then dyn mcost
  else
    let! bs <- memory_write_to 32 offset;
    wr top 0 (u_bswap (z_of_le bs));; dyn mcost.

(** 1093-1117 MSTORE (little endian machine) *)
Definition op_mstore (top gas : Z) : M op_result :=
  let! offset_u256 <- rd top 0;
  let! value <- rd top 1;
  let! '(mcost, offset, _) <- mem_cost offset_u256 32;
  if gas <? mcost then dyn mcost
  else memory_read_from (bytes_le 32 (u_bswap value)) offset;; dyn mcost.

(** 1120-1140 MSTORE8 *)
Definition op_mstore8 (top gas : Z) : M op_result :=
  let! offset_u256 <- rd top 0;
  let! t1 <- rd top 1;
  let! '(mcost, offset, _) <- mem_cost offset_u256 1;
  if gas <? mcost then dyn mcost
  else memory_read_from [u8 t1] offset;; dyn mcost.

(** 1143-1164 SLOAD *)
Definition op_sload (top gas : Z) : M op_result :=
  let! key <- rd top 0;
  let! dynamic_gas <-
    (if rev_ge (e_rev e) Berlin
     then let! a <- host_access_storage (msg_recipient msg) key;
          ret (if is_warm a then 100 else 2100)
     else ret 800);
  if gas <? dynamic_gas then dyn dynamic_gas
  else let! w <- get_w;
       wr top 0 (h_get_storage H w (msg_recipient msg) key);; dyn dynamic_gas.

(** 1195-1213: gas charged by SSTORE for a storage status *)
Definition sstore_gas (rev : revision) (warm : bool) (st : storage_status) : Z :=
  let g0 := if rev_ge rev Berlin then 100 else 800 in
  let g1 := match st with S_ADDED => 20000 | _ => g0 end in
  let g2 := match st with
            | S_MODIFIED | S_DELETED => if rev_ge rev Berlin then 2900 else 5000
            | _ => g1
            end in
  if rev_ge rev Berlin && negb warm then g2 + 2100 else g2.

(** 1221-1231 warm_cold_restored *)
Definition warm_cold_restored (rev : revision) (warm : bool) : Z :=
  if rev_ge rev Berlin then if warm then 5000 - 2100 - 100 else 4900 else 4200.

(** 1233-1254: the refunds are applied one after the other to the 64-bit counter *)
Definition sstore_refunds (rev : revision) (warm : bool) (st : storage_status) : list Z :=
  let clear := if rev_ge rev London then 4800 else 15000 in
  match st with
  | S_DELETED => [clear]
  | S_DELETED_ADDED => [- clear]
  | S_MODIFIED_DELETED => [clear]
  | S_DELETED_RESTORED => [- clear; warm_cold_restored rev warm]
  | S_ADDED_DELETED => [if rev_ge rev Berlin then 19900 else 19200]
  | S_MODIFIED_RESTORED => [warm_cold_restored rev warm]
  | S_ASSIGNED | S_ADDED | S_MODIFIED => []
  end.

Fixpoint add_refs (ds : list Z) : M unit :=
  match ds with [] => ret tt | d :: ds' => add_ref d;; add_refs ds' end.

(** 1167-1258 SSTORE *)
Definition op_sstore (top gas : Z) : M op_result :=
  if gas <=? 2300 then fail kErrorGas
  else
    let! key <- rd top 0;
    let! value <- rd top 1;
    let! key_is_warm <-
      (if rev_ge (e_rev e) Berlin
       then let! a <- host_access_storage (msg_recipient msg) key; ret (is_warm a)
       else ret false);
    let! st <- host_set_storage (msg_recipient msg) key value;
    let dynamic_gas := sstore_gas (e_rev e) key_is_warm st in
    if gas <? dynamic_gas then dyn dynamic_gas
    else add_refs (sstore_refunds (e_rev e) key_is_warm st);; dyn dynamic_gas.

(** 1288-1295 PC *)
Definition op_pc (top pc : Z) : M op_result := op_push pc top.
(** 1298-1305 MSIZE *)
Definition op_msize (top : Z) : M op_result :=
  let! m <- get_mem; op_push (mem_size m) top.

(** 1329-1343 TLOAD *)
Definition op_tload (top : Z) : M op_result :=
  let! key <- rd top 0;
  let! w <- get_w;
  wr top 0 (h_get_transient H w (msg_recipient msg) key);; cont.
(** 1346-1362 TSTORE *)
Definition op_tstore (top : Z) : M op_result :=
  let! key <- rd top 0;
  let! value <- rd top 1;
  let! w <- get_w;
  put_w (h_set_transient H w (msg_recipient msg) key value);; cont.

(** reading [n] code bytes starting at [p] (1384, 1392) *)
Definition code_bytes (p n : Z) : res (list Z) :=
  if (0 <=? p) && (p + n <=? zlen (e_code e)) then Ok (slice (e_code e) p n) else Undef UB_code_oob.

(** 1364-1402 PushImpl<N>::Run: 64-bit limbs, the top partial limb byte by byte, the others by a
    byte-swapped 8 byte load; the value is the sum of its limbs. *)
Fixpoint push_full_words (k : nat) (data : Z) : res Z :=
  match k with
  | O => Ok 0
  | Datatypes.S k' =>
    do! w <- code_bytes data 8;
    do! r <- push_full_words k' (data + 8);
    Ok (bswap64_load w * 2 ^ (64 * Z.of_nat k') + r)
  end.
Definition push_value (n pc : Z) : res Z :=
  let num_full_words := n / 8 in
  let num_partial_bytes := n mod 8 in
  let data := pc + 1 in
  do! partial <-
    (if num_partial_bytes =? 0 then Ok 0
     else do! bs <- code_bytes data num_partial_bytes;
          Ok (fold_left (fun word b => Z.lor (Z.shiftl word 8) b) bs 0));
  do! full <- push_full_words (Z.to_nat num_full_words) (data + num_partial_bytes);
  Ok (partial * 2 ^ (64 * num_full_words) + full).
Definition op_pushn (n top pc : Z) : M op_result :=
  let! v <- lift (push_value n pc); op_push v top.

(** 1409-1421 DupImpl<N> *)
Definition op_dup (n top : Z) : M op_result :=
  let! v <- rd top (n - 1); wr top (-1) v;; cont.
(** 1428-1440 SwapImpl<N> *)
Definition op_swap (n top : Z) : M op_result :=
  let! a <- rd top 0; let! b <- rd top n; wr top 0 b;; wr top n a;; cont.

(** 1465-1468: topics[i] = top[2 + i] *)
Fixpoint read_topics (k : nat) (top i : Z) : M (list Z) :=
  match k with
  | O => ret []
  | Datatypes.S k' => let! t <- rd top i; let! ts <- read_topics k' top (i + 1); ret (t :: ts)
  end.
(** 1447-1480 LogImpl<N> *)
Definition op_log (n top gas : Z) : M op_result :=
  let! offset_u256 <- rd top 0;
  let! size_u256 <- rd top 1;
  let! '(mcost, offset, size) <- mem_cost offset_u256 size_u256;
  if gas <? mcost then dyn mcost
  else
    let! topics <- read_topics (Z.to_nat n) top 2;
    let! dynamic_gas <- lift (i64 (mcost + s64 (8 * size)));
    if gas <? dynamic_gas then dyn dynamic_gas
    else
      let! data <- memory_get_span offset size;
      let! w <- get_w;
      put_w (h_emit_log H w (msg_recipient msg) data topics);;
      dyn dynamic_gas.

(** 1487-1511 ReturnImpl<result_state> *)
Definition op_return (result_state : run_state) (top gas : Z) : M op_result :=
  let! offset_u256 <- rd top 0;
  let! size_u256 <- rd top 1;
  let! '(mcost, offset, size) <- mem_cost offset_u256 size_u256;
  if gas <? mcost then dyn mcost
  else
    let! bs <- memory_write_to size offset;
    put_ret bs;;
    ret (mkOpRes result_state mcost).

(** 1525-1560 SELFDESTRUCT *)
Definition op_selfdestruct (top gas : Z) : M op_result :=
  let! t0 <- rd top 0;
  let account := to_address t0 in
  let! w <- get_w;
  let g1 := if negb (h_get_balance H w (msg_recipient msg) =? 0) && negb (h_account_exists H w account)
            then 25000 else 0 in
  let! dynamic_gas <-
    (if rev_ge (e_rev e) Berlin
     then let! a <- host_access_account account; ret (if is_warm a then g1 else g1 + 2600)
     else ret g1);
  if gas <? dynamic_gas then dyn dynamic_gas
  else
    let! destructed <- host_selfdestruct (msg_recipient msg) account;
    (if destructed && negb (rev_ge (e_rev e) London) then add_ref 24000 else ret tt);;
    ret (mkOpRes kDone dynamic_gas).

(** 1588 etc.: [if (gas -= cost; gas < 0) return {.dynamic_gas_costs = initial_gas - gas};]
    The subtraction is in C++ signed 64 bit. *)
Definition spend (initial_gas gas cost : Z) (k : Z -> M op_result) : M op_result :=
  let! gas <- lift (i64 (gas - cost));
  if gas <? 0 then let! d <- lift (i64 (initial_gas - gas)); dyn d
  else k gas.

(** 1562-1649 CreateImpl<Op>, [is2] = (Op == CREATE2) *)
Definition op_create (is2 : bool) (top gas : Z) : M op_result :=
  if kMaxCallDepth <? msg_depth msg then fail kErrorCreate
  else
    let initial_gas := gas in
    let! endowment <- rd top 0;
    let! init_code_offset_u256 <- rd top 1;
    let! init_code_size_u256 <- rd top 2;
    let! salt <- (if is2 then rd top 3 else ret 0);
    let top := top + (if is2 then 3 else 2) in
    let! '(mcost, init_code_offset, init_code_size) <- mem_cost init_code_offset_u256 init_code_size_u256;
    spend initial_gas gas mcost (fun gas =>
    let finish (gas : Z) : M op_result :=
      put_ret [];;
      let! init_code <- memory_get_span init_code_offset init_code_size;
      let! w <- get_w;
      if negb (endowment =? 0) && (h_get_balance H w (msg_recipient msg) <? endowment)
      then wr top 0 0;; let! d <- lift (i64 (initial_gas - gas)); dyn d
      else
        let m := mkMsg (if is2 then K_CREATE2 else K_CREATE) 0 (msg_depth msg + 1)
                       (gas - Z.quot gas 64) 0 (msg_recipient msg) init_code endowment salt 0 None in
        let! result <- host_call m;
        (if status_eqb (cr_status result) EVMC_REVERT then put_ret (cr_output result) else ret tt);;
        let! used <- lift (i64 (msg_gas m - cr_gas_left result));
        let! gas <- lift (i64 (gas - used));
        add_ref (cr_gas_refund result);;
        wr top 0 (if status_eqb (cr_status result) EVMC_SUCCESS then cr_create_address result else 0);;
        let! d <- lift (i64 (initial_gas - gas));
        dyn d in
    let after_init (gas : Z) : M op_result :=
      if is2 then
        let! hash_cost <- lift (i64 (6 * word_size init_code_size));
        spend initial_gas gas hash_cost finish
      else finish gas in
    if rev_ge (e_rev e) Shanghai then
      if 2 * 24576 <? init_code_size
      then let! d <- lift (i64 (initial_gas - gas)); ret (mkOpRes kErrorInitCodeSizeExceeded d)
      else
        let! init_code_cost <- lift (i64 (2 * word_size init_code_size));
        spend initial_gas gas init_code_cost after_init
    else after_init gas).

(** 1657-1797 CallImpl<Op>; [op] is one of CALL, CALLCODE, DELEGATECALL, STATICCALL *)
Definition op_call (op : opcode) (top gas : Z) : M op_result :=
  if kMaxCallDepth <? msg_depth msg then fail kErrorCall
  else
    let initial_gas := gas in
    let has_value_arg := match op with STATICCALL | DELEGATECALL => false | _ => true end in
    let! call_gas_u256 <- rd top 0;
    let! t1 <- rd top 1;
    let account := to_address t1 in
    let! value <- (if has_value_arg then rd top 2 else ret 0);
    let k := if has_value_arg then 3 else 2 in
    let! input_offset_u256 <- rd top k;
    let! input_size_u256 <- rd top (k + 1);
    let! output_offset_u256 <- rd top (k + 2);
    let! output_size_u256 <- rd top (k + 3);
    let top := top + (k + 3) in
    let has_value := negb (value =? 0) in
    let! '(input_mem_cost, input_offset, input_size) <- mem_cost input_offset_u256 input_size_u256;
    let! '(output_mem_cost, output_offset, output_size) <- mem_cost output_offset_u256 output_size_u256;
    spend initial_gas gas (Z.max input_mem_cost output_mem_cost) (fun gas =>
    if match op with CALL => has_value && e_static e | _ => false end then fail kErrorStaticCall
    else
    let! address_access_cost <- account_access_cost account;
    let positive_value_cost := if has_value then 9000 else 0 in
    let! w <- get_w;
    let value_to_empty_account_cost :=
      match op with
      | CALLCODE => 0
      | _ => if has_value && negb (h_account_exists H w account) then 25000 else 0
      end in
    spend initial_gas gas (address_access_cost + positive_value_cost + value_to_empty_account_cost) (fun gas =>
    put_ret [];;
    memory_grow output_offset output_size;;
    let! input_data <- memory_get_span input_offset input_size;
    let call_gas := if call_gas_u256 <? kMaxGas then s64 call_gas_u256 else kMaxGas in
    let base_gas := Z.min call_gas (gas - Z.quot gas 64) in
    let! msg_gas0 <- (if has_value then lift (i64 (base_gas + 2300)) else ret base_gas);
    let! gas <- (if has_value then lift (i64 (gas + 2300)) else ret gas);
    let m := mkMsg
      (match op with DELEGATECALL => K_DELEGATECALL | CALLCODE => K_CALLCODE | _ => K_CALL end)
      (match op with STATICCALL => EVMC_STATIC | _ => msg_flags msg end)
      (msg_depth msg + 1)
      msg_gas0
      (match op with CALL | STATICCALL => account | _ => msg_recipient msg end)
      (match op with DELEGATECALL => msg_sender msg | _ => msg_recipient msg end)
      input_data
      (match op with DELEGATECALL => msg_value msg | _ => value end)
      0 account None in
    let! w <- get_w;
    if has_value && (h_get_balance H w (msg_recipient msg) <? value)
    then wr top 0 0;; let! d <- lift (i64 (initial_gas - gas)); dyn d
    else
      let! result <- host_call m;
      put_ret (cr_output result);;
      (if 0 <? zlen (cr_output result)
       then memory_read_from_with_size (cr_output result) output_offset
              (Z.min output_size (zlen (cr_output result)))
       else ret tt);;
      let! used <- lift (i64 (msg_gas m - cr_gas_left result));
      spend initial_gas gas used (fun gas =>
      add_ref (cr_gas_refund result);;
      wr top 0 (b2w (status_eqb (cr_status result) EVMC_SUCCESS));;
      let! d <- lift (i64 (initial_gas - gas));
      dyn d))).

(** Impl<op>::Run for all op codes except the jumps (which have RunJump instead) *)
Definition op_run (o : opcode) (top pc gas : Z) : M op_result :=
  match o with
  | STOP => fail kDone                                     (* 189 *)
  | ADD => op_binary (fun a b => u_add b a) top            (* 197 *)
  | MUL => op_binary (fun a b => u_mul b a) top            (* 207 *)
  | SUB => op_binary (fun a b => u_sub a b) top            (* 217 *)
  | DIV => op_div top
  | SDIV => op_sdiv top
  | MOD => op_mod top
  | SMOD => op_smod top
  | ADDMOD => op_addmod top
  | MULMOD => op_mulmod top
  | EXP => op_exp top gas
  | SIGNEXTEND => op_binary signextend top
  | LT => op_binary (fun a b => b2w (a <? b)) top          (* 348 *)
  | GT => op_binary (fun a b => b2w (b <? a)) top          (* 358 *)
  | SLT => op_binary (fun a b => b2w (u_slt a b)) top      (* 368 *)
  | SGT => op_binary (fun a b => b2w (u_slt b a)) top      (* 378 *)
  | EQ => op_binary (fun a b => b2w (a =? b)) top          (* 388 *)
  | ISZERO => op_unary (fun a => b2w (a =? 0)) top         (* 398 *)
  | AND => op_binary u_and top                             (* 408 *)
  | OR => op_binary u_or top                               (* 418 *)
  | XOR => op_binary u_xor top                             (* 428 *)
  | NOT => op_unary u_not top                              (* 438 *)
  | BYTE => op_binary byte_op top
  | SHL => op_binary (fun a b => u_shl b a) top            (* 463 *)
  | SHR => op_binary (fun a b => u_shr b a) top            (* 473 *)
  | SAR => op_binary sar top
  | SHA3 => op_sha3 top gas
  | ADDRESS => op_push (msg_recipient msg) top             (* 533 *)
  | BALANCE => op_account_query (h_get_balance H) top gas
  | ORIGIN => op_tx tx_origin top
  | CALLER => op_push (msg_sender msg) top                 (* 577 *)
  | CALLVALUE => op_push (msg_value msg) top               (* 587 *)
  | CALLDATALOAD => op_calldataload top
  | CALLDATASIZE => op_push (zlen (msg_input msg)) top     (* 619 *)
  | CALLDATACOPY => op_calldatacopy top gas
  | CODESIZE => op_push code_size top                      (* 672 *)
  | CODECOPY => op_codecopy top gas
  | GASPRICE => op_tx tx_gas_price top
  | EXTCODESIZE => op_account_query (h_get_code_size H) top gas
  | EXTCODECOPY => op_extcodecopy top gas
  | RETURNDATASIZE => let! r <- get_ret; op_push (zlen r) top   (* 796 *)
  | RETURNDATACOPY => op_returndatacopy top gas
  | EXTCODEHASH => op_account_query (h_get_code_hash H) top gas
  | BLOCKHASH => op_blockhash top
  | COINBASE => op_tx tx_coinbase top
  | TIMESTAMP => op_tx tx_timestamp top
  | NUMBER => op_tx tx_number top
  | PREVRANDAO => op_tx tx_prev_randao top
  | GASLIMIT => op_tx tx_gas_limit top
  | CHAINID => op_tx tx_chain_id top
  | SELFBALANCE => op_selfbalance top
  | BASEFEE => op_tx tx_base_fee top
  | BLOBHASH => op_blobhash top
  | BLOBBASEFEE => op_tx tx_blob_base_fee top
  | POP => cont                                            (* 1021 *)
  | MCOPY => op_mcopy top gas
  | PUSH0 => op_push 0 top                                 (* 1063 *)
  | MLOAD => op_mload top gas
  | MSTORE => op_mstore top gas
  | MSTORE8 => op_mstore8 top gas
  | SLOAD => op_sload top gas
  | SSTORE => op_sstore top gas
  | PC => op_pc top pc
  | MSIZE => op_msize top
  | GAS => op_push gas top                                 (* 1313 *)
  | JUMPDEST => cont                                       (* 1326 *)
  | TLOAD => op_tload top
  | TSTORE => op_tstore top
  | PUSHn n => op_pushn n top pc
  | DUPn n => op_dup n top
  | SWAPn n => op_swap n top
  | LOGn n => op_log n top gas
  | RETURN => op_return kReturn top gas                    (* 1514 *)
  | REVERT => op_return kRevert top gas                    (* 1516 *)
  | INVALID => fail kInvalid                               (* 1522 *)
  | SELFDESTRUCT => op_selfdestruct top gas
  | CREATE => op_create false top gas
  | CREATE2 => op_create true top gas
  | CALL | CALLCODE | DELEGATECALL | STATICCALL => op_call o top gas
  | JUMP | JUMPI => cont                                   (* no Run; see [run_jump] *)
  end.

(** 1261-1285 RunJump *)
Definition run_jump (o : opcode) (top : Z) : M bool :=
  match o with
  | JUMPI => let! b <- rd top 1; ret (negb (b =? 0))
  | _ => ret true
  end.

(** 1857-1876 Context::CheckJumpDest (on failure ctx.state becomes kErrorJump) *)
Definition check_jump_dest (index_u256 : Z) : M bool :=
  if negb (index_u256 / 2 ^ 64 =? 0) then ret false
  else
    let index := u64 index_u256 in
    if zlen (e_targets e) <=? index then ret false
    else match znth (e_targets e) index with
         | Some t => ret (negb (t =? 0))
         | None => lift (Undef UB_target_oob)
         end.

(** 1927-1931 Result; [r_pc = None] is the nullptr *)
Record run_result : Set := mkRun { r_state : run_state; r_pc : option Z; r_gas : Z }.
Definition run_error (st : run_state) : M run_result := ret (mkRun st None 0).

(** 1933-2005 Run<op_code, Stepping>.  pc is an offset into padded_code. *)
Definition run_op (stepping : bool) (o : opcode) (pc gas top stack_size : Z) : M run_result :=
  let i := op_kinfo o in
  if match i_since i with Some r => negb (rev_ge (e_rev e) r) | None => false end
  then run_error kErrorOpcode
  else if i_nostatic i && e_static e then run_error kErrorStaticCall
  else if (0 <? i_pops i) && (stack_size <? i_pops i) then run_error kErrorStackUnderflow
  else if (0 <? i_delta i) && (kStackSize - stack_size <? i_delta i) then run_error kErrorStackOverflow
  else if gas <? i_gas i then run_error kErrorGas
  else
    let! gas <- lift (i64 (gas - i_gas i));
    if i_jump i then
      let! taken <- run_jump o top;
      if taken then
        let! dest <- rd top 0;
        let! ok <- check_jump_dest dest;
        if negb ok then run_error kErrorJump
        else
          let pc := u32 dest in
          if stepping then ret (mkRun kRunning (Some pc) gas)
          else if gas <? i_gas (op_kinfo JUMPDEST) then run_error kErrorGas
          else let! gas <- lift (i64 (gas - i_gas (op_kinfo JUMPDEST)));
               ret (mkRun kRunning (Some (pc + 1)) gas)
      else ret (mkRun kRunning (Some (pc + 1)) gas)
    else
      let! r <- op_run o top pc gas;
      if 0 <? o_dyn r then
        if gas <? o_dyn r then run_error kErrorGas
        else let! gas <- lift (i64 (gas - o_dyn r));
             ret (mkRun (o_state r) (Some (pc + i_len i)) gas)
      else ret (mkRun (o_state r) (Some (pc + i_len i)) gas).

(** What an observer can see of the Context: message, ctx.gas and ctx.stack *)
Record octx : Set := mkOctx { oc_msg : message; oc_gas : Z; oc_top : Z; oc_buf : list (option Z) }.

(** observer.h:33-40: the Observer concept, as functions on the shared VM state *)
Record observer : Type := mkObs {
  ob_uses_context : bool;
  ob_pre_run : message -> SH -> res SH;
  ob_post_run : message -> SH -> res SH;
  ob_pre : opcode -> octx -> SH -> res SH;
  ob_post : opcode -> octx -> SH -> res SH;
}.

(** observer.h:43-49 NoObserver *)
Definition no_observer : observer :=
  mkObs false (fun _ h => Ok h) (fun _ h => Ok h) (fun _ _ h => Ok h) (fun _ _ h => Ok h).

(** 2011-2018: local variables of RunInterpreter, and the fields of ctx it may update
    ([l_cgas] = ctx.gas, [l_ctop] = ctx.stack.top_ as an index into the buffer). *)
Record lst : Set := mkL {
  l_state : run_state; l_pc : option Z; l_gas : Z; l_top : Z; l_size : Z; l_cgas : Z; l_ctop : Z;
}.

(** 2047-2048: goto* dispatch_table[ *pc ] *)
Definition fetch (pc : option Z) : res opcode :=
  match pc with
  | None => Undef UB_null_pc
  | Some p =>
    match znth (e_code e) p with
    | None => Undef UB_code_oob
    | Some b =>
      match znth dispatch_table b with
      | Some o => Ok o
      | None => Undef UB_code_oob
      end
    end
  end.

(** pc is dereferenced by the dispatch before, hence never null here *)
Definition deref_pc (pc : option Z) : res Z :=
  match pc with Some p => Ok p | None => Undef UB_null_pc end.

(** 2061-2077 RUN_OPCODE for the op code at pc *)
Definition exec_one (ob : observer) (stepping : bool) (l : lst) (s : mst) : res (lst * mst) :=
  do! o <- fetch (l_pc l);
  do! p <- deref_pc (l_pc l);
  do! sh1 <- ob_pre ob o (mkOctx msg (l_cgas l) (l_ctop l) (m_buf s)) (m_sh s);
  do! '(r, s1) <- run_op stepping o p (l_gas l) (l_top l) (l_size l) (set_sh sh1 s);
  let top := l_top l - i_delta (op_kinfo o) in
  if s_strict S && ((top <? 0) || (kStackSize <? top)) then Undef UB_ptr_range
  else
    let cgas := if ob_uses_context ob then r_gas r else l_cgas l in
    let ctop := if ob_uses_context ob then top else l_ctop l in
    do! sh2 <- ob_post ob o (mkOctx msg cgas ctop (m_buf s1)) (m_sh s1);
    Ok (mkL (r_state r) (r_pc r) (r_gas r) top (l_size l + i_delta (op_kinfo o)) cgas ctop,
        set_sh sh2 s1).

(** The dispatch loop 2041-2080 for Stepping = false.  [NoFuel] is proved impossible. *)
Fixpoint run_loop (ob : observer) (fuel : nat) (l : lst) (s : mst) : res (lst * mst) :=
  if is_running (l_state l) then
    match fuel with
    | O => NoFuel
    | Datatypes.S fuel' => do! '(l', s') <- exec_one ob false l s; run_loop ob fuel' l' s'
    end
  else Ok (l, s).

(** The dispatch loop for Stepping = true with [n] steps left (2043-2046:
    [steps_executed++ >= steps] is tested before the state). *)
Fixpoint step_loop (ob : observer) (n : nat) (l : lst) (s : mst) : res (lst * mst) :=
  match n with
  | O => Ok (l, s)
  | Datatypes.S n' =>
    if is_running (l_state l)
    then do! '(l', s') <- exec_one ob true l s; step_loop ob n' l' s'
    else Ok (l, s)
  end.

(** The fields of ctx after RunInterpreter *)
Record ctx_out : Set := mkCtx { c_state : run_state; c_pc : Z; c_gas : Z; c_top : Z }.

(** 2087-2122: epilogue.  [pc0]: the value of ctx.pc before. *)
Definition epilogue (stepping : bool) (pc0 : Z) (l : lst) (s : mst) : ctx_out * mst :=
  let st := l_state l in
  let gas := if stepping
             then if is_success st || is_running st then l_gas l else 0
             else if is_success st then l_gas l else 0 in
  let top := if stepping && negb (is_success st || is_running st) then l_ctop l else l_top l in
  let keep := match st with kReturn | kRevert | kRunning => true | _ => false end in
  let s' := if keep then s else set_ret [] s in
  let pc := if stepping then match l_pc l with Some p => p | None => pc0 end else pc0 in
  (mkCtx st pc gas top, s').

(** interpreter.h:57-62 InterpreterResult *)
Record iresult : Set := mkIRes { ir_state : run_state; ir_gas : Z; ir_refund : Z; ir_output : list Z }.

(** 76-104 Interpret.  [buf] is the stack buffer obtained from Stack::Data::Get() with
    arbitrary contents; ctx starts with an empty stack, memory and return data. *)
Definition interpret (ob : observer) (fuel : nat) (buf : list (option Z)) (w : W) (sh : SH)
  : res (iresult * W * SH) :=
  do! sh1 <- ob_pre_run ob msg sh;
  let l0 := mkL kRunning (Some 0) (msg_gas msg) kStackSize 0 (msg_gas msg) kStackSize in
  do! '(l, s) <- run_loop ob fuel l0 (mkMst buf [] [] 0 w sh1);
  let '(c, s') := epilogue false 0 l s in
  do! sh2 <- ob_post_run ob msg (m_sh s');
  Ok (mkIRes (c_state c) (c_gas c) (m_ref s') (m_ret s'), m_w s', sh2).

(** interpreter.h:67-75 SteppingArgs (the part not in env) *)
Record step_args : Set := mkSArgs {
  sa_state : run_state; sa_pc : Z; sa_refunds : Z; sa_buf : list (option Z); sa_top : Z;
  sa_mem : memory; sa_steps : Z; sa_ret : list Z;
}.

(** 112-150 InterpretNSteps.  The gas is args.message->gas. *)
Definition interpret_n_steps (a : step_args) (w : W) (sh : SH) : res (ctx_out * mst) :=
  let l0 := mkL (sa_state a) (Some (sa_pc a)) (msg_gas msg) (sa_top a) (kStackSize - sa_top a)
                (msg_gas msg) (sa_top a) in
  let s0 := mkMst (sa_buf a) (sa_mem a) (sa_ret a) (sa_refunds a) w sh in
  do! '(l, s) <- step_loop no_observer (Z.to_nat (sa_steps a)) l0 s0;
  Ok (epilogue true (sa_pc a) l s).

End Ops.
