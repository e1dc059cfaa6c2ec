(** Base fee and stack effect of every instruction, and the order in which an instruction's conditions are checked.
    Written down from the Yellow Paper (appendix G and H) and the EIPs, in groups of equal fee; independent of the table of the reference
    semantics and of the one in the code. *)
From Verif Require Import Base Host SpecHost.
From Coq Require Import ZArith List Bool.
Import ListNotations.
Local Open Scope Z_scope.

(** members of the group, elements popped, elements pushed, base fee. DUPn pops n elements and pushes them back with a copy, SWAPn pops
    and pushes n+1. The price of accounts and slots, and the part that depends on operands, is charged by the instruction itself. *)
Definition groups : list (list Z * Z * Z * Z) :=
  [ ([0x00], 0, 0, 0); ([0xF3; 0xFD], 2, 0, 0);                                   (* STOP; RETURN REVERT *)
    ([0x30; 0x32; 0x33; 0x34; 0x36; 0x38; 0x3A; 0x3D], 0, 1, 2);                  (* ADDRESS ORIGIN CALLER CALLVALUE CALLDATASIZE CODESIZE GASPRICE RETURNDATASIZE *)
    ([0x41; 0x42; 0x43; 0x44; 0x45; 0x46; 0x48; 0x4A], 0, 1, 2);                  (* COINBASE TIMESTAMP NUMBER PREVRANDAO GASLIMIT CHAINID BASEFEE BLOBBASEFEE *)
    ([0x58; 0x59; 0x5A; 0x5F], 0, 1, 2); ([0x50], 1, 0, 2);                       (* PC MSIZE GAS PUSH0; POP *)
    ([0x01; 0x03; 0x10; 0x11; 0x12; 0x13; 0x14; 0x16; 0x17; 0x18; 0x1A; 0x1B; 0x1C; 0x1D], 2, 1, 3); (* ADD SUB LT GT SLT SGT EQ AND OR XOR BYTE SHL SHR SAR *)
    ([0x15; 0x19; 0x35; 0x51; 0x49], 1, 1, 3); ([0x52; 0x53], 2, 0, 3);           (* ISZERO NOT CALLDATALOAD MLOAD BLOBHASH; MSTORE MSTORE8 *)
    ([0x37; 0x39; 0x3E; 0x5E], 3, 0, 3);                                          (* CALLDATACOPY CODECOPY RETURNDATACOPY MCOPY *)
    ([0x02; 0x04; 0x05; 0x06; 0x07; 0x0B], 2, 1, 5); ([0x47], 0, 1, 5);           (* MUL DIV SDIV MOD SMOD SIGNEXTEND; SELFBALANCE *)
    ([0x08; 0x09], 3, 1, 8); ([0x56], 1, 0, 8);                                   (* ADDMOD MULMOD; JUMP *)
    ([0x57], 2, 0, 10); ([0x0A], 2, 1, 10); ([0x5B], 0, 0, 1);                    (* JUMPI; EXP; JUMPDEST *)
    ([0x20], 2, 1, 30); ([0x40], 1, 1, 20);                                       (* SHA3; BLOCKHASH *)
    ([0x31; 0x3B; 0x3F; 0x54], 1, 1, 0); ([0x3C], 4, 0, 0); ([0x55], 2, 0, 0);    (* BALANCE EXTCODESIZE EXTCODEHASH SLOAD; EXTCODECOPY; SSTORE *)
    ([0x5C], 1, 1, 100); ([0x5D], 2, 0, 100);                                     (* TLOAD; TSTORE *)
    ([0xF0], 3, 1, 32000); ([0xF5], 4, 1, 32000); ([0xFF], 1, 0, 5000);           (* CREATE; CREATE2; SELFDESTRUCT *)
    ([0xF1; 0xF2], 7, 1, 0); ([0xF4; 0xFA], 6, 1, 0) ]                            (* CALL CALLCODE; DELEGATECALL STATICCALL *)
  ++ map (fun n => ([0x5F + n], 0, 1, 3)) (map Z.of_nat (seq 1 32))               (* PUSH1 .. PUSH32 *)
  ++ map (fun n => ([0x7F + n], n, n + 1, 3)) (map Z.of_nat (seq 1 16))           (* DUP1 .. DUP16 *)
  ++ map (fun n => ([0x8F + n], n + 1, n + 1, 3)) (map Z.of_nat (seq 1 16))       (* SWAP1 .. SWAP16 *)
  ++ map (fun n => ([0xA0 + n], n + 2, 0, 375 + 375 * n)) (map Z.of_nat (seq 0 5)). (* LOG0 .. LOG4 *)
Definition group_of (op : Z) : option (list Z * Z * Z * Z) := find (fun '(ops, _, _, _) => existsb (Z.eqb op) ops) groups.
Definition pops (op : Z) : Z := match group_of op with Some (_, a, _, _) => a | None => 0 end.
Definition pushes (op : Z) : Z := match group_of op with Some (_, _, r, _) => r | None => 0 end.
Definition base_fee (op : Z) : Z := match group_of op with Some (_, _, _, c) => c | None => 0 end.

(** the bytes that are instructions of revision [rv] *)
Definition later (rv : revision) (op : Z) : bool := existsb (fun '(o, since) => (op =? o) && negb (rev_ge rv since)) introduced.

(** the first condition that the instruction [op] of a message [m] violates with [height] elements on the stack *)
Definition first_check (m : message) (rv : revision) (height op : Z) : option status_code :=
  if negb (assigned op) then Some (if msg_gas m <? 0 then EVMC_OUT_OF_GAS else EVMC_INVALID_INSTRUCTION)
  else if later rv op then Some EVMC_UNDEFINED_INSTRUCTION
  else if Z.odd (msg_flags m) && existsb (Z.eqb op) modifying then Some EVMC_STATIC_MODE_VIOLATION
  else if height <? pops op then Some EVMC_STACK_UNDERFLOW
  else if 1024 <? height - pops op + pushes op then Some EVMC_STACK_OVERFLOW
  else if msg_gas m <? base_fee op then Some EVMC_OUT_OF_GAS
  else None.
