(** go/interpreter/lfvm: opcode.go, instruction.go, converter.go, gas.go (static prices) and stack_usage.go: the long-form code of
    the Go interpreter, how it is made from EVM code, and the tables that come with it.  A Go run time panic (index or slice bounds out
    of range) is [Undef] here. *)
From Verif Require Import Base Host.

(** instruction.go:20-28 Instruction: op code and argument (uint16 each); Code is a slice of them *)
Notation linstr := (Z * Z)%type.
Notation lcode := (list linstr).

(** opcode.go:215-279: the op codes beyond the EVM's bytes, JUMP_TO = 0x100 upwards *)
Definition L_JUMP_TO := 0x100.  Definition L_NOOP := 0x101.  Definition L_DATA := 0x102.
Definition L_SWAP2_SWAP1_POP_JUMP := 0x103.  Definition L_SWAP1_POP_SWAP2_SWAP1 := 0x104.
Definition L_POP_SWAP2_SWAP1_POP := 0x105.   Definition L_POP_POP := 0x106.
Definition L_PUSH1_SHL := 0x107.   Definition L_PUSH1_ADD := 0x108.   Definition L_PUSH1_DUP1 := 0x109.
Definition L_PUSH2_JUMP := 0x10A.  Definition L_PUSH2_JUMPI := 0x10B. Definition L_PUSH1_PUSH1 := 0x10C.
Definition L_SWAP1_POP := 0x10D.   Definition L_POP_JUMP := 0x10E.    Definition L_SWAP2_SWAP1 := 0x10F.
Definition L_SWAP2_POP := 0x110.   Definition L_DUP2_MSTORE := 0x111. Definition L_DUP2_LT := 0x112.
Definition L_ISZERO_PUSH2_JUMPI := 0x113.         Definition L_PUSH1_PUSH4_DUP3 := 0x114.
Definition L_AND_SWAP1_POP_SWAP2_SWAP1 := 0x115.  Definition L_PUSH1_PUSH1_PUSH1_SHL_SUB := 0x116.

(** opcode.go:355-400 decompose; the empty list stands for nil *)
Definition decompose (op : Z) : list Z :=
  match op with
  | 0x103 => [0x91; 0x90; 0x50; 0x56]
  | 0x104 => [0x90; 0x50; 0x91; 0x90]
  | 0x105 => [0x50; 0x91; 0x90; 0x50]
  | 0x106 => [0x50; 0x50]
  | 0x107 => [0x60; 0x1B]
  | 0x108 => [0x60; 0x01]
  | 0x109 => [0x60; 0x80]
  | 0x10A => [0x61; 0x56]
  | 0x10B => [0x61; 0x57]
  | 0x10C => [0x60; 0x60]
  | 0x10D => [0x90; 0x50]
  | 0x10E => [0x50; 0x56]
  | 0x10F => [0x91; 0x90]
  | 0x110 => [0x91; 0x50]
  | 0x111 => [0x81; 0x52]
  | 0x112 => [0x81; 0x10]
  | 0x113 => [0x15; 0x61; 0x57]
  | 0x114 => [0x60; 0x63; 0x82]
  | 0x115 => [0x16; 0x90; 0x50; 0x91; 0x90]
  | 0x116 => [0x60; 0x60; 0x60; 0x1B; 0x03]
  | _ => []
  end.

(** ** gas.go:30-237: static gas prices *)
(** 67-223: a single instruction; None where the switch has no case *)
Definition price1 (op : Z) : option Z :=
  if (0x60 <=? op) && (op <=? 0x7F) then Some 3
  else if (0x80 <=? op) && (op <=? 0x8F) then Some 3
  else if (0x90 <=? op) && (op <=? 0x9F) then Some 3
  else if (0x10 <=? op) && (op <=? 0x1D) then Some 3
  else if (0x41 <=? op) && (op <=? 0x46) then Some 2
  else match op with
  | 0x50 => Some 2 | 0x5F => Some 2
  | 0x01 => Some 3 | 0x03 => Some 3 | 0x02 => Some 5 | 0x04 => Some 5 | 0x05 => Some 5 | 0x06 => Some 5 | 0x07 => Some 5
  | 0x08 => Some 8 | 0x09 => Some 8 | 0x0A => Some 10 | 0x0B => Some 5 | 0x20 => Some 30
  | 0x30 => Some 2 | 0x31 => Some 700 | 0x32 => Some 2 | 0x33 => Some 2 | 0x34 => Some 2 | 0x35 => Some 3 | 0x36 => Some 2
  | 0x37 => Some 3 | 0x38 => Some 2 | 0x39 => Some 3 | 0x3A => Some 2 | 0x3B => Some 700 | 0x3C => Some 700 | 0x3D => Some 2
  | 0x3E => Some 3 | 0x3F => Some 700 | 0x40 => Some 20 | 0x47 => Some 5 | 0x48 => Some 2 | 0x49 => Some 3 | 0x4A => Some 2
  | 0x51 => Some 3 | 0x52 => Some 3 | 0x53 => Some 3 | 0x54 => Some 800 | 0x55 => Some 0 | 0x56 => Some 8 | 0x57 => Some 10
  | 0x5B => Some 1 | 0x100 => Some 0 | 0x5C => Some 100 | 0x5D => Some 100 | 0x58 => Some 2 | 0x59 => Some 2 | 0x5E => Some 3
  | 0x5A => Some 2 | 0xA0 => Some 375 | 0xA1 => Some 750 | 0xA2 => Some 1125 | 0xA3 => Some 1500 | 0xA4 => Some 1875
  | 0xF0 => Some 32000 | 0xF5 => Some 32000 | 0xF1 => Some 700 | 0xF2 => Some 700 | 0xFA => Some 700 | 0xF3 => Some 0
  | 0x00 => Some 0 | 0xFD => Some 0 | 0xFE => Some 0 | 0xF4 => Some 700 | 0xFF => Some 5000
  | _ => None
  end.
Definition UNKNOWN_GAS_PRICE := 999999.
(** 67-237 getStaticGasPriceInternal; the recursion for super instructions only meets single instructions *)
Definition getStaticGasPriceInternal (op : Z) : Z :=
  match price1 op with
  | Some g => g
  | None =>
    match decompose op with
    | [] => UNKNOWN_GAS_PRICE
    | subs => fold_left (fun sum sub => sum + match price1 sub with Some g => g | None => UNKNOWN_GAS_PRICE end) subs 0
    end
  end.
(** 33-59 *)
Definition getBerlinGasPriceInternal (op : Z) : Z :=
  match op with
  | 0x54 | 0x3C | 0x3B | 0x3F | 0x31 | 0xF1 | 0xF2 | 0xFA | 0xF4 => 0
  | _ => getStaticGasPriceInternal op
  end.
(** 61-66, with opcode.go:402-430: the tables are indexed by the low 9 bits *)
Definition staticGasPrice (rev op : Z) : Z :=
  let op := op mod 0x200 in
  if 1 <=? rev then getBerlinGasPriceInternal op else getStaticGasPriceInternal op.

(** ** stack_usage.go *)
(** 18-20: from, to, delta *)
Definition usage : Type := (Z * Z * Z)%type.
(** 29-36 *)
Definition makeUsage (pops pushes : Z) : usage :=
  let delta := pushes - pops in (- pops, if 0 <? delta then delta else 0, delta).
(** 38-84: a single instruction *)
Definition usage1 (op : Z) : option usage :=
  if (0x60 <=? op) && (op <=? 0x7F) then Some (makeUsage 0 1)
  else if (0x80 <=? op) && (op <=? 0x8F) then Some (makeUsage (op - 0x80 + 1) (op - 0x80 + 2))
  else if (0x90 <=? op) && (op <=? 0x9F) then Some (makeUsage (op - 0x90 + 2) (op - 0x90 + 2))
  else if (0xA0 <=? op) && (op <=? 0xA4) then Some (makeUsage (op - 0xA0 + 2) 0)
  else match op with
  | 0x5B | 0x100 | 0x00 => Some (makeUsage 0 0)
  | 0x5F | 0x59 | 0x30 | 0x32 | 0x33 | 0x34 | 0x36 | 0x38 | 0x3A | 0x41 | 0x42 | 0x43 | 0x44 | 0x45 | 0x58 | 0x5A | 0x3D | 0x47
  | 0x46 | 0x48 | 0x4A => Some (makeUsage 0 1)
  | 0x50 | 0x56 | 0xFF => Some (makeUsage 1 0)
  | 0x15 | 0x19 | 0x31 | 0x35 | 0x3B | 0x40 | 0x51 | 0x54 | 0x5C | 0x3F | 0x49 => Some (makeUsage 1 1)
  | 0x52 | 0x53 | 0x55 | 0x5D | 0x57 | 0xF3 | 0xFD => Some (makeUsage 2 0)
  | 0x01 | 0x03 | 0x02 | 0x04 | 0x05 | 0x06 | 0x07 | 0x0A | 0x0B | 0x20 | 0x10 | 0x11 | 0x12 | 0x13 | 0x14 | 0x16 | 0x18 | 0x17 | 0x1A
  | 0x1B | 0x1C | 0x1D => Some (makeUsage 2 1)
  | 0x37 | 0x39 | 0x3E | 0x5E => Some (makeUsage 3 0)
  | 0x08 | 0x09 | 0xF0 => Some (makeUsage 3 1)
  | 0x3C => Some (makeUsage 4 0)
  | 0xF5 => Some (makeUsage 4 1)
  | 0xFA | 0xF4 => Some (makeUsage 6 1)
  | 0xF1 | 0xF2 => Some (makeUsage 7 1)
  | _ => None
  end.
(** 98-116 *)
Definition combineStackUsage (us : list usage) : usage :=
  fold_left (fun '(rfrom, rto, rdelta) '(ufrom, uto, udelta) =>
    let from := ufrom + rdelta in let to := uto + rdelta in
    (if from <? rfrom then from else rfrom, if rto <? to then to else rto, rdelta + udelta)) us (0, 0, 0).
(** 26-95 *)
Definition computeStackUsage (op : Z) : usage :=
  match usage1 op with
  | Some u => u
  | None =>
    match decompose op with
    | [] => (0, 0, 0)
    | subs => combineStackUsage (map (fun s => match usage1 s with Some u => u | None => (0, 0, 0) end) subs)
    end
  end.
(** interpreter.go:565-591 checkStackLimits; true: within the limits *)
Definition checkStackLimits (len op : Z) : bool :=
  let '(from, to, _) := computeStackUsage (op mod 0x200) in
  negb (len <? - from) && negb (1024 - to <? len).

(** ** converter.go *)
(** 98-107 codeBuilder: the instructions written so far, latest first, their number (nextPos), and the size of the array *)
Record builder : Type := mkB { b_rev : lcode; b_len : Z; b_cap : Z }.
(** 113-118 appendOp (and 120-124 appendCode: the array starts out zeroed and no entry is written twice) *)
Definition appendOp (b : builder) (op arg : Z) : res builder :=
  if b_len b <? b_cap b then Ok (mkB ((op, arg) :: b_rev b) (b_len b + 1) (b_cap b)) else Undef UB_code_oob.
Definition appendCode (b : builder) (op : Z) : res builder := appendOp b op 0.
Definition appendData (b : builder) (data : Z) : res builder := appendOp b L_DATA data.
(** 130-135.  A position before nextPos (which would drop instructions) does not occur and is not modelled. *)
Definition padNoOpsUntil (b : builder) (pos : Z) : res builder :=
  if pos <? b_len b then Undef UB_code_oob
  else if b_cap b <? pos then Undef UB_code_oob
  else Ok (mkB (repeat (L_NOOP, 0) (Z.to_nat (pos - b_len b)) ++ b_rev b) pos (b_cap b)).
(** 137-139 *)
Definition toCode (b : builder) : lcode := rev_append (b_rev b) [].
Lemma toCode_rev b : toCode b = rev (b_rev b). Proof. unfold toCode. rewrite rev_append_rev. apply app_nil_r. Qed.

(** uint16(x) *)
Definition u16 (z : Z) : Z := z mod 2 ^ 16.
(** uint16(hi)<<8 | uint16(lo) *)
Definition pack (hi lo : Z) : Z := hi * 256 + lo.
Definition byte_at (rest : list Z) (k : nat) : Z := nth k rest 0.

(** 253-355 appendSuperInstructions at code position pos; [rest] is code[pos:].  The number of bytes to skip, 0: nothing done. *)
Definition appendSuperInstructions (b : builder) (rest : list Z) : res (builder * Z) :=
  let n := zlen rest in
  let op := byte_at rest in
  let is k v := op k =? v in
  if (7 <? n) && is 0%nat 0x60 && is 2%nat 0x63 && is 7%nat 0x82 then
    do! b <- appendOp b L_PUSH1_PUSH4_DUP3 (pack (op 1%nat) 0);
    do! b <- appendData b (pack (op 3%nat) (op 4%nat));
    do! b <- appendData b (pack (op 5%nat) (op 6%nat)); Ok (b, 7)
  else if (7 <? n) && is 0%nat 0x60 && is 2%nat 0x60 && is 4%nat 0x60 && is 6%nat 0x1B && is 7%nat 0x03 then
    do! b <- appendOp b L_PUSH1_PUSH1_PUSH1_SHL_SUB (pack (op 1%nat) (op 3%nat));
    do! b <- appendData b (op 5%nat); Ok (b, 7)
  else if (4 <? n) && is 0%nat 0x16 && is 1%nat 0x90 && is 2%nat 0x50 && is 3%nat 0x91 && is 4%nat 0x90 then
    do! b <- appendCode b L_AND_SWAP1_POP_SWAP2_SWAP1; Ok (b, 4)
  else if (4 <? n) && is 0%nat 0x15 && is 1%nat 0x61 && is 4%nat 0x57 then
    do! b <- appendOp b L_ISZERO_PUSH2_JUMPI (pack (op 2%nat) (op 3%nat)); Ok (b, 4)
  else if (3 <? n) && is 0%nat 0x91 && is 1%nat 0x90 && is 2%nat 0x50 && is 3%nat 0x56 then
    do! b <- appendCode b L_SWAP2_SWAP1_POP_JUMP; Ok (b, 3)
  else if (3 <? n) && is 0%nat 0x90 && is 1%nat 0x50 && is 2%nat 0x91 && is 3%nat 0x90 then
    do! b <- appendCode b L_SWAP1_POP_SWAP2_SWAP1; Ok (b, 3)
  else if (3 <? n) && is 0%nat 0x50 && is 1%nat 0x91 && is 2%nat 0x90 && is 3%nat 0x50 then
    do! b <- appendCode b L_POP_SWAP2_SWAP1_POP; Ok (b, 3)
  else if (3 <? n) && is 0%nat 0x61 && is 3%nat 0x56 then
    do! b <- appendOp b L_PUSH2_JUMP (pack (op 1%nat) (op 2%nat)); Ok (b, 3)
  else if (3 <? n) && is 0%nat 0x61 && is 3%nat 0x57 then
    do! b <- appendOp b L_PUSH2_JUMPI (pack (op 1%nat) (op 2%nat)); Ok (b, 3)
  else if (3 <? n) && is 0%nat 0x60 && is 2%nat 0x60 then
    do! b <- appendOp b L_PUSH1_PUSH1 (pack (op 1%nat) (op 3%nat)); Ok (b, 3)
  else if (2 <? n) && is 0%nat 0x60 && is 2%nat 0x01 then
    do! b <- appendOp b L_PUSH1_ADD (op 1%nat); Ok (b, 2)
  else if (2 <? n) && is 0%nat 0x60 && is 2%nat 0x1B then
    do! b <- appendOp b L_PUSH1_SHL (op 1%nat); Ok (b, 2)
  else if (2 <? n) && is 0%nat 0x60 && is 2%nat 0x80 then
    do! b <- appendOp b L_PUSH1_DUP1 (op 1%nat); Ok (b, 2)
  else if (1 <? n) && is 0%nat 0x90 && is 1%nat 0x50 then do! b <- appendCode b L_SWAP1_POP; Ok (b, 1)
  else if (1 <? n) && is 0%nat 0x50 && is 1%nat 0x56 then do! b <- appendCode b L_POP_JUMP; Ok (b, 1)
  else if (1 <? n) && is 0%nat 0x50 && is 1%nat 0x50 then do! b <- appendCode b L_POP_POP; Ok (b, 1)
  else if (1 <? n) && is 0%nat 0x91 && is 1%nat 0x90 then do! b <- appendCode b L_SWAP2_SWAP1; Ok (b, 1)
  else if (1 <? n) && is 0%nat 0x91 && is 1%nat 0x50 then do! b <- appendCode b L_SWAP2_POP; Ok (b, 1)
  else if (1 <? n) && is 0%nat 0x81 && is 1%nat 0x52 then do! b <- appendCode b L_DUP2_MSTORE; Ok (b, 1)
  else if (1 <? n) && is 0%nat 0x81 && is 1%nat 0x10 then do! b <- appendCode b L_DUP2_LT; Ok (b, 1)
  else Ok (b, 0).

(** 236-242: the remaining pairs of data; [i] counts from 2 *)
Fixpoint appendPairs (k : nat) (b : builder) (data : list Z) : res builder :=
  match k, data with
  | S k, hi :: lo :: data => do! b <- appendData b (pack hi lo); appendPairs k b data
  | _, _ => Ok b
  end.

(** 196-251 appendInstructions; [rest] is code[pos:], [size] is len(code) *)
Definition appendInstructions (super : bool) (b : builder) (pos : Z) (rest : list Z) (size : Z) : res (builder * Z) :=
  do! '(b, n) <- (if super then appendSuperInstructions b rest else Ok (b, 0));
  if 0 <? n then Ok (b, n)
  else
  let op := byte_at rest 0 in
  if op =? 0x58 then
    if 2 ^ 16 - 1 <? pos then do! b <- appendCode b 0xFE; Ok (b, 1)
    else do! b <- appendOp b 0x58 (u16 pos); Ok (b, 0)
  else if (0x60 <=? op) && (op <=? 0x7F) then
    let numBytes := op - 0x60 + 1 in
    let missing := pos + numBytes + 2 - size in
    let '(b, data) :=
      if 0 <? missing then
        (mkB (b_rev b) (b_len b) (b_cap b + (missing + 1) / 2), firstn (Z.to_nat (numBytes + 1)) (skipn 1 rest ++ zeros (numBytes + 1)))
      else (b, firstn (Z.to_nat numBytes) (skipn 1 rest)) in
    do! b <- (if numBytes =? 1 then appendOp b 0x60 (pack (byte_at data 0) 0)
              else appendOp b op (pack (byte_at data 0) (byte_at data 1)));
    do! b <- appendPairs (Z.to_nat ((numBytes - 2) / 2)) b (skipn 2 data);
    do! b <- (if (1 <? numBytes) && (numBytes mod 2 =? 1) then appendData b (pack (byte_at data (Z.to_nat (numBytes - 1))) 0) else Ok b);
    Ok (b, numBytes)
  else do! b <- appendCode b op; Ok (b, 0).

(** 162-185: the loop; [rest] is code[i:] *)
Fixpoint convert_loop (fuel : nat) (super : bool) (size : Z) (rest : list Z) (i : Z) (b : builder) : res lcode :=
  match rest with
  | [] => Ok (toCode b)
  | byte :: _ =>
    match fuel with
    | O => NoFuel
    | S fuel =>
      if byte =? 0x5B then
        do! b <- (if b_len b <? i then appendOp b L_JUMP_TO (u16 i) else Ok b);
        do! b <- padNoOpsUntil b i;
        do! b <- appendCode b 0x5B;
        convert_loop fuel super size (skipn 1 rest) (i + 1) b
      else
        do! '(b, inc) <- appendInstructions super b i rest size;
        convert_loop fuel super size (skipn (Z.to_nat (inc + 1)) rest) (i + inc + 1) b
    end
  end.
(** 141-187 convert *)
Definition convert (super : bool) (code : list Z) : res lcode :=
  convert_loop (length code) super (zlen code) code 0 (mkB [] 0 (zlen code)).
