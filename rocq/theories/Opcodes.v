(** Models vm/evmzero/opcodes.h, opcodes.cc and opcodes.inc. *)
From Verif Require Import Base.

(** opcodes.h:20-23: the used op codes, in the order of opcodes.inc:21-276.  The numbered
    families PUSH1..32, DUP1..16, SWAP1..16, LOG0..4 are one constructor each, indexed by N as
    in interpreter.cc:1365-1485 (PushImpl<N>, DupImpl<N>, SwapImpl<N>, LogImpl<N>). *)
Inductive opcode : Set :=
| STOP | ADD | MUL | SUB | DIV | SDIV | MOD | SMOD
| ADDMOD | MULMOD | EXP | SIGNEXTEND | LT | GT | SLT | SGT
| EQ | ISZERO | AND | OR | XOR | NOT | BYTE | SHL
| SHR | SAR | SHA3 | ADDRESS | BALANCE | ORIGIN | CALLER | CALLVALUE
| CALLDATALOAD | CALLDATASIZE | CALLDATACOPY | CODESIZE | CODECOPY | GASPRICE | EXTCODESIZE | EXTCODECOPY
| RETURNDATASIZE | RETURNDATACOPY | EXTCODEHASH | BLOCKHASH | COINBASE | TIMESTAMP | NUMBER | PREVRANDAO
| GASLIMIT | CHAINID | SELFBALANCE | BASEFEE | BLOBHASH | BLOBBASEFEE | POP | MLOAD
| MSTORE | MSTORE8 | SLOAD | SSTORE | JUMP | JUMPI | PC | MSIZE
| GAS | JUMPDEST | TLOAD | TSTORE | MCOPY | PUSH0 | CREATE | CALL
| CALLCODE | RETURN | DELEGATECALL | CREATE2 | STATICCALL | REVERT | INVALID | SELFDESTRUCT

| PUSHn (n : Z) | DUPn (n : Z) | SWAPn (n : Z) | LOGn (n : Z).

(** opcodes.h:20-23 (enum values, from opcodes.inc) *)
Definition opcode_value (o : opcode) : Z :=
  match o with
  | STOP => 0x00
  | ADD => 0x01
  | MUL => 0x02
  | SUB => 0x03
  | DIV => 0x04
  | SDIV => 0x05
  | MOD => 0x06
  | SMOD => 0x07
  | ADDMOD => 0x08
  | MULMOD => 0x09
  | EXP => 0x0A
  | SIGNEXTEND => 0x0B
  | LT => 0x10
  | GT => 0x11
  | SLT => 0x12
  | SGT => 0x13
  | EQ => 0x14
  | ISZERO => 0x15
  | AND => 0x16
  | OR => 0x17
  | XOR => 0x18
  | NOT => 0x19
  | BYTE => 0x1A
  | SHL => 0x1B
  | SHR => 0x1C
  | SAR => 0x1D
  | SHA3 => 0x20
  | ADDRESS => 0x30
  | BALANCE => 0x31
  | ORIGIN => 0x32
  | CALLER => 0x33
  | CALLVALUE => 0x34
  | CALLDATALOAD => 0x35
  | CALLDATASIZE => 0x36
  | CALLDATACOPY => 0x37
  | CODESIZE => 0x38
  | CODECOPY => 0x39
  | GASPRICE => 0x3A
  | EXTCODESIZE => 0x3B
  | EXTCODECOPY => 0x3C
  | RETURNDATASIZE => 0x3D
  | RETURNDATACOPY => 0x3E
  | EXTCODEHASH => 0x3F
  | BLOCKHASH => 0x40
  | COINBASE => 0x41
  | TIMESTAMP => 0x42
  | NUMBER => 0x43
  | PREVRANDAO => 0x44
  | GASLIMIT => 0x45
  | CHAINID => 0x46
  | SELFBALANCE => 0x47
  | BASEFEE => 0x48
  | BLOBHASH => 0x49
  | BLOBBASEFEE => 0x4A
  | POP => 0x50
  | MLOAD => 0x51
  | MSTORE => 0x52
  | MSTORE8 => 0x53
  | SLOAD => 0x54
  | SSTORE => 0x55
  | JUMP => 0x56
  | JUMPI => 0x57
  | PC => 0x58
  | MSIZE => 0x59
  | GAS => 0x5A
  | JUMPDEST => 0x5B
  | TLOAD => 0x5C
  | TSTORE => 0x5D
  | MCOPY => 0x5E
  | PUSH0 => 0x5F
  | CREATE => 0xF0
  | CALL => 0xF1
  | CALLCODE => 0xF2
  | RETURN => 0xF3
  | DELEGATECALL => 0xF4
  | CREATE2 => 0xF5
  | STATICCALL => 0xFA
  | REVERT => 0xFD
  | INVALID => 0xFE
  | SELFDESTRUCT => 0xFF
  | PUSHn n => 0x60 + n - 1
  | DUPn n => 0x80 + n - 1
  | SWAPn n => 0x90 + n - 1
  | LOGn n => 0xA0 + n
  end.

(** interpreter.cc:2032-2037: dispatch_table, expanded from opcodes.inc:21-276; unused op
    codes are mapped to op_INVALID. *)
Definition dispatch_table : list opcode := [
  STOP; ADD; MUL; SUB; DIV; SDIV; MOD; SMOD; ADDMOD; MULMOD; EXP; SIGNEXTEND; INVALID; INVALID; INVALID; INVALID;   (* 0x00 *)
  LT; GT; SLT; SGT; EQ; ISZERO; AND; OR; XOR; NOT; BYTE; SHL; SHR; SAR; INVALID; INVALID;   (* 0x10 *)
  SHA3; INVALID; INVALID; INVALID; INVALID; INVALID; INVALID; INVALID; INVALID; INVALID; INVALID; INVALID; INVALID; INVALID; INVALID; INVALID;   (* 0x20 *)
  ADDRESS; BALANCE; ORIGIN; CALLER; CALLVALUE; CALLDATALOAD; CALLDATASIZE; CALLDATACOPY; CODESIZE; CODECOPY; GASPRICE; EXTCODESIZE; EXTCODECOPY; RETURNDATASIZE; RETURNDATACOPY; EXTCODEHASH;   (* 0x30 *)
  BLOCKHASH; COINBASE; TIMESTAMP; NUMBER; PREVRANDAO; GASLIMIT; CHAINID; SELFBALANCE; BASEFEE; BLOBHASH; BLOBBASEFEE; INVALID; INVALID; INVALID; INVALID; INVALID;   (* 0x40 *)
  POP; MLOAD; MSTORE; MSTORE8; SLOAD; SSTORE; JUMP; JUMPI; PC; MSIZE; GAS; JUMPDEST; TLOAD; TSTORE; MCOPY; PUSH0;   (* 0x50 *)
  PUSHn 1; PUSHn 2; PUSHn 3; PUSHn 4; PUSHn 5; PUSHn 6; PUSHn 7; PUSHn 8; PUSHn 9; PUSHn 10; PUSHn 11; PUSHn 12; PUSHn 13; PUSHn 14; PUSHn 15; PUSHn 16;   (* 0x60 *)
  PUSHn 17; PUSHn 18; PUSHn 19; PUSHn 20; PUSHn 21; PUSHn 22; PUSHn 23; PUSHn 24; PUSHn 25; PUSHn 26; PUSHn 27; PUSHn 28; PUSHn 29; PUSHn 30; PUSHn 31; PUSHn 32;   (* 0x70 *)
  DUPn 1; DUPn 2; DUPn 3; DUPn 4; DUPn 5; DUPn 6; DUPn 7; DUPn 8; DUPn 9; DUPn 10; DUPn 11; DUPn 12; DUPn 13; DUPn 14; DUPn 15; DUPn 16;   (* 0x80 *)
  SWAPn 1; SWAPn 2; SWAPn 3; SWAPn 4; SWAPn 5; SWAPn 6; SWAPn 7; SWAPn 8; SWAPn 9; SWAPn 10; SWAPn 11; SWAPn 12; SWAPn 13; SWAPn 14; SWAPn 15; SWAPn 16;   (* 0x90 *)
  LOGn 0; LOGn 1; LOGn 2; LOGn 3; LOGn 4; INVALID; INVALID; INVALID; INVALID; INVALID; INVALID; INVALID; INVALID; INVALID; INVALID; INVALID;   (* 0xA0 *)
  INVALID; INVALID; INVALID; INVALID; INVALID; INVALID; INVALID; INVALID; INVALID; INVALID; INVALID; INVALID; INVALID; INVALID; INVALID; INVALID;   (* 0xB0 *)
  INVALID; INVALID; INVALID; INVALID; INVALID; INVALID; INVALID; INVALID; INVALID; INVALID; INVALID; INVALID; INVALID; INVALID; INVALID; INVALID;   (* 0xC0 *)
  INVALID; INVALID; INVALID; INVALID; INVALID; INVALID; INVALID; INVALID; INVALID; INVALID; INVALID; INVALID; INVALID; INVALID; INVALID; INVALID;   (* 0xD0 *)
  INVALID; INVALID; INVALID; INVALID; INVALID; INVALID; INVALID; INVALID; INVALID; INVALID; INVALID; INVALID; INVALID; INVALID; INVALID; INVALID;   (* 0xE0 *)
  CREATE; CALL; CALLCODE; RETURN; DELEGATECALL; CREATE2; INVALID; INVALID; INVALID; INVALID; STATICCALL; INVALID; INVALID; REVERT; INVALID; SELFDESTRUCT   (* 0xF0 *)
].

(** opcodes.h:46-54 IsCallOpCode *)
Definition is_call_opcode (o : opcode) : bool :=
  match o with
  | CREATE | CALL | CALLCODE | DELEGATECALL | CREATE2 | STATICCALL => true
  | _ => false
  end.

(** opcodes.h:56-63 IsExternalOpCode *)
Definition is_external_opcode (o : opcode) : bool :=
  match o with
  | BALANCE | ORIGIN | GASPRICE | EXTCODESIZE | EXTCODECOPY | EXTCODEHASH | BLOCKHASH | COINBASE | TIMESTAMP | NUMBER | PREVRANDAO | GASLIMIT | CHAINID | SELFBALANCE | BASEFEE | BLOBHASH | BLOBBASEFEE | SLOAD | SSTORE | TLOAD | TSTORE | SELFDESTRUCT | LOGn _ => true
  | _ => false
  end.

(** opcodes.h:37-44: values not assigned to an op code *)
Definition is_used_opcode (b : Z) : bool :=
  match nth_error dispatch_table (Z.to_nat b) with
  | Some o => opcode_value o =? b
  | None => false
  end.

Definition op_PUSH1 : Z := 0x60.
Definition op_PUSH32 : Z := 0x7F.
Definition op_JUMPDEST : Z := 0x5B.
Definition op_STOP : Z := 0x00.

(** opcodes.cc:15-28 CalculateValidJumpTargets: the for loop, with [i] of type size_t.
    The loop runs on fuel; [NoFuel] is proved impossible. *)
Fixpoint calc_targets_loop (fuel : nat) (code valid : list Z) (i : Z) : res (list Z) :=
  if i <? zlen code then
    match fuel with
    | O => NoFuel
    | S fuel' =>
      match znth code i with
      | None => Undef UB_code_oob
      | Some ins =>
        if (op_PUSH1 <=? ins) && (ins <=? op_PUSH32)
        then calc_targets_loop fuel' code valid (u64 (u64 (i + (ins - op_PUSH1 + 1)) + 1))
        else
          if i <? zlen valid
          then calc_targets_loop fuel' code
                 (list_upd valid (Z.to_nat i) (if ins =? op_JUMPDEST then 1 else 0)) (u64 (i + 1))
          else Undef UB_target_oob
      end
    end
  else Ok valid.

(** opcodes.cc:15-28 *)
Definition calc_valid_jump_targets (code : list Z) : res (list Z) :=
  calc_targets_loop (length code) code (repeat 0 (length code)) 0.
