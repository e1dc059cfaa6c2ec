(** Reference semantics of the EVM (Yellow Paper rules with the EIPs up to Cancun), written
    from the specification and not from the code: unbounded integers, the stack as a list, memory
    as a total function with an active size, instructions identified by their byte.
    The only shared vocabulary is the EVMC interface (Host.v).  Nothing here is imported from the
    model of the C++ code. *)
From Verif Require Import Base Host.

(** ** Words *)
Definition U : Z := 2 ^ 256.
Definition to_word (z : Z) : Z := z mod U.
Definition signed (v : Z) : Z := if v <? 2 ^ 255 then v else v - U.
Definition bool_word (b : bool) : Z := if b then 1 else 0.
Definition addr_of (v : Z) : Z := v mod 2 ^ 160.

(** big endian number of a byte string, and big endian bytes of a number *)
Definition be (bs : list Z) : Z := fold_left (fun acc b => 256 * acc + b) bs 0.
Definition be_bytes (n : nat) (v : Z) : list Z :=
  map (fun i => (v / 256 ^ Z.of_nat (n - 1 - i)) mod 256) (seq 0 n).

(** number of significant bytes *)
Definition byte_count (v : Z) : Z := if v =? 0 then 0 else Z.log2 v / 8 + 1.

(** ** Byte strings followed by infinitely many zeros *)
Definition data_at (d : list Z) (i : Z) : Z :=
  if (0 <=? i) && (i <? zlen d) then nth (Z.to_nat i) d 0 else 0.
Definition data_bytes (d : list Z) (off n : Z) : list Z :=
  map (fun i => data_at d (off + Z.of_nat i)) (seq 0 (Z.to_nat n)).

(** ** Memory *)
Definition read_bytes (m : Z -> Z) (off n : Z) : list Z :=
  map (fun i => m (off + Z.of_nat i)) (seq 0 (Z.to_nat n)).
Definition write_bytes (m : Z -> Z) (off : Z) (bs : list Z) : Z -> Z :=
  fun a => if (off <=? a) && (a <? off + zlen bs) then nth (Z.to_nat (a - off)) bs 0 else m a.

(** words needed for n bytes; quadratic memory cost; size after touching [off, off+n) *)
Definition words (n : Z) : Z := (n + 31) / 32.
Definition Gmem (bytes : Z) : Z := let w := words bytes in 3 * w + w * w / 512.
Definition expand (active off n : Z) : Z :=
  if n =? 0 then active else Z.max active (32 * words (off + n)).

(** ** Code *)
(** beyond its end the code consists of STOP *)
Definition code_at (code : list Z) (p : Z) : Z := data_at code p.
Definition push_len (b : Z) : Z := if (0x60 <=? b) && (b <=? 0x7F) then b - 0x5F else 0.

(** instruction starts of the linear disassembly *)
Inductive instr_start (code : list Z) : Z -> Prop :=
| start_zero : instr_start code 0
| start_next : forall p, instr_start code p -> p < zlen code ->
                 instr_start code (p + 1 + push_len (code_at code p)).
Definition jumpdest (code : list Z) (d : Z) : Prop :=
  instr_start code d /\ d < zlen code /\ code_at code d = 0x5B.

(** ** Frames and outcomes *)
Inductive failure : Set :=
| OutOfGas | StackUnderflow | StackOverflow | BadJump | InvalidInstruction
| UndefinedInstruction | StaticViolation | ReturnDataOutOfBounds
| CallDepth | CreateDepth | InitCodeTooLarge.

Inductive halt : Set := Stopped | Returned | Reverted.

Record frame (W : Type) : Type := mkFrame {
  f_pc : Z; f_gas : Z; f_stack : list Z; f_mem : Z -> Z; f_active : Z;
  f_ret : list Z;             (* return data of the last call *)
  f_refund : Z; f_world : W;
}.
Arguments mkFrame {W}. Arguments f_pc {W}. Arguments f_gas {W}. Arguments f_stack {W}.
Arguments f_mem {W}. Arguments f_active {W}. Arguments f_ret {W}. Arguments f_refund {W}.
Arguments f_world {W}.

(** Result of one instruction.  A failing instruction leaves the frame as it was before the
    instruction except for host effects (warming of accounts and slots, and the storage write that
    the EVMC interface merges with its cost query). *)
Inductive outcome (W : Type) : Type :=
| Next (f : frame W)
| Halt (h : halt) (out : list Z) (f : frame W)
| Fail (e : failure) (f : frame W).
Arguments Next {W}. Arguments Halt {W}. Arguments Fail {W}.

(** ** Instruction table: byte -> arguments taken, results, base fee, first revision,
    forbidden in static mode *)
Record instr : Set := mkInstr {
  in_args : Z; in_results : Z; in_fee : Z; in_since : revision; in_stateful : bool;
}.

Definition G_base := 2.  Definition G_verylow := 3.  Definition G_low := 5.
Definition G_mid := 8.   Definition G_high := 10.

Definition instruction (b : Z) : option instr :=
  let i a r g := Some (mkInstr a r g Istanbul false) in
  let since v a r g := Some (mkInstr a r g v false) in
  match b with
  | 0x00 => i 0 0 0
  | 0x01 => i 2 1 G_verylow | 0x02 => i 2 1 G_low | 0x03 => i 2 1 G_verylow
  | 0x04 => i 2 1 G_low | 0x05 => i 2 1 G_low | 0x06 => i 2 1 G_low | 0x07 => i 2 1 G_low
  | 0x08 => i 3 1 G_mid | 0x09 => i 3 1 G_mid
  | 0x0A => i 2 1 10 | 0x0B => i 2 1 G_low
  | 0x10 => i 2 1 G_verylow | 0x11 => i 2 1 G_verylow | 0x12 => i 2 1 G_verylow
  | 0x13 => i 2 1 G_verylow | 0x14 => i 2 1 G_verylow | 0x15 => i 1 1 G_verylow
  | 0x16 => i 2 1 G_verylow | 0x17 => i 2 1 G_verylow | 0x18 => i 2 1 G_verylow
  | 0x19 => i 1 1 G_verylow | 0x1A => i 2 1 G_verylow | 0x1B => i 2 1 G_verylow
  | 0x1C => i 2 1 G_verylow | 0x1D => i 2 1 G_verylow
  | 0x20 => i 2 1 30
  | 0x30 => i 0 1 G_base | 0x31 => i 1 1 0 | 0x32 => i 0 1 G_base | 0x33 => i 0 1 G_base
  | 0x34 => i 0 1 G_base | 0x35 => i 1 1 G_verylow | 0x36 => i 0 1 G_base
  | 0x37 => i 3 0 G_verylow | 0x38 => i 0 1 G_base | 0x39 => i 3 0 G_verylow
  | 0x3A => i 0 1 G_base | 0x3B => i 1 1 0 | 0x3C => i 4 0 0 | 0x3D => i 0 1 G_base
  | 0x3E => i 3 0 G_verylow | 0x3F => i 1 1 0
  | 0x40 => i 1 1 20 | 0x41 => i 0 1 G_base | 0x42 => i 0 1 G_base | 0x43 => i 0 1 G_base
  | 0x44 => i 0 1 G_base | 0x45 => i 0 1 G_base | 0x46 => i 0 1 G_base | 0x47 => i 0 1 G_low
  | 0x48 => since London 0 1 G_base
  | 0x49 => since Cancun 1 1 G_verylow
  | 0x4A => since Cancun 0 1 G_base
  | 0x50 => i 1 0 G_base | 0x51 => i 1 1 G_verylow | 0x52 => i 2 0 G_verylow
  | 0x53 => i 2 0 G_verylow | 0x54 => i 1 1 0
  | 0x55 => Some (mkInstr 2 0 0 Istanbul true)
  | 0x56 => i 1 0 G_mid | 0x57 => i 2 0 G_high | 0x58 => i 0 1 G_base | 0x59 => i 0 1 G_base
  | 0x5A => i 0 1 G_base | 0x5B => i 0 0 1
  | 0x5C => since Cancun 1 1 100
  | 0x5D => Some (mkInstr 2 0 100 Cancun true)
  | 0x5E => since Cancun 3 0 G_verylow
  | 0x5F => since Shanghai 0 1 G_base
  | 0xF0 => Some (mkInstr 3 1 32000 Istanbul true)
  | 0xF1 => i 7 1 0 | 0xF2 => i 7 1 0 | 0xF3 => i 2 0 0 | 0xF4 => i 6 1 0
  | 0xF5 => Some (mkInstr 4 1 32000 Istanbul true)
  | 0xFA => i 6 1 0 | 0xFD => i 2 0 0
  | 0xFF => Some (mkInstr 1 0 5000 Istanbul true)
  | _ =>
    if (0x60 <=? b) && (b <=? 0x7F) then i 0 1 G_verylow
    else if (0x80 <=? b) && (b <=? 0x8F) then i (b - 0x7F) (b - 0x7F + 1) G_verylow
    else if (0x90 <=? b) && (b <=? 0x9F) then i (b - 0x8F + 1) (b - 0x8F + 1) G_verylow
    else if (0xA0 <=? b) && (b <=? 0xA4)
         then Some (mkInstr (b - 0xA0 + 2) 0 (375 * (b - 0xA0 + 1)) Istanbul true)
    else None
  end.

(** ** Word functions *)
Definition w_div (a b : Z) : Z := if b =? 0 then 0 else a / b.
Definition w_sdiv (a b : Z) : Z := if b =? 0 then 0 else to_word (Z.quot (signed a) (signed b)).
Definition w_mod (a b : Z) : Z := if b =? 0 then 0 else a mod b.
Definition w_smod (a b : Z) : Z := if b =? 0 then 0 else to_word (Z.rem (signed a) (signed b)).
Definition w_addmod (a b n : Z) : Z := if n =? 0 then 0 else (a + b) mod n.
Definition w_mulmod (a b n : Z) : Z := if n =? 0 then 0 else (a * b) mod n.
(** sign extension of the two's complement number in the low (k+1) bytes *)
Definition w_signextend (k v : Z) : Z :=
  if k <? 31 then
    let m := 2 ^ (8 * (k + 1)) in
    let low := v mod m in
    to_word (if low <? m / 2 then low else low - m)
  else v.
(** byte i counted from the most significant *)
Definition w_byte (i v : Z) : Z := if i <? 32 then (v / 256 ^ (31 - i)) mod 256 else 0.
Definition w_shl (n v : Z) : Z := if n <? 256 then to_word (v * 2 ^ n) else 0.
Definition w_shr (n v : Z) : Z := if n <? 256 then v / 2 ^ n else 0.
Definition w_sar (n v : Z) : Z :=
  if n <? 256 then to_word (signed v / 2 ^ n) else if signed v <? 0 then U - 1 else 0.

(** ** SSTORE (EIP-2200, EIP-2929, EIP-3529) by the status the host reports *)
Definition sstore_cost (rev : revision) (cold : bool) (st : storage_status) : Z :=
  (if rev_ge rev Berlin && cold then 2100 else 0) +
  match st with
  | S_ADDED => 20000
  | S_MODIFIED | S_DELETED => if rev_ge rev Berlin then 5000 - 2100 else 5000
  | _ => if rev_ge rev Berlin then 100 else 800
  end.
Definition clear_refund (rev : revision) : Z := if rev_ge rev London then 4800 else 15000.
(** restoring the original value.  A restored slot is dirty, hence warm; for the combination
    "cold and restored", which no consistent host reports, evmzero grants 4900. *)
Definition restore_refund (rev : revision) (cold : bool) : Z :=
  if rev_ge rev Berlin then if cold then 5000 - 100 else 5000 - 2100 - 100 else 5000 - 800.
Definition sstore_refund (rev : revision) (cold : bool) (st : storage_status) : Z :=
  match st with
  | S_DELETED | S_MODIFIED_DELETED => clear_refund rev
  | S_DELETED_ADDED => - clear_refund rev
  | S_DELETED_RESTORED => restore_refund rev cold - clear_refund rev
  | S_ADDED_DELETED => if rev_ge rev Berlin then 20000 - 100 else 20000 - 800
  | S_MODIFIED_RESTORED => restore_refund rev cold
  | S_ASSIGNED | S_ADDED | S_MODIFIED => 0
  end.

Section Semantics.
Context {W : Type}.
Variable H : host W.               (* the host *)
Variable call : W -> message -> cresult * W. (* nested calls and creations, made through the host *)
Variable keccak : list Z -> Z.
Variable msg : message.            (* the message being executed *)
Variable rev : revision.
Variable code : list Z.            (* the code, without padding *)
Variable valid_dest : Z -> bool.   (* decides [jumpdest code] *)

Notation frame := (frame W).
Notation outcome := (outcome W).

Definition static : bool := Z.odd (msg_flags msg).
Definition self : Z := msg_recipient msg.

Definition with_pc (p : Z) (f : frame) : frame :=
  mkFrame p (f_gas f) (f_stack f) (f_mem f) (f_active f) (f_ret f) (f_refund f) (f_world f).
Definition with_gas (g : Z) (f : frame) : frame :=
  mkFrame (f_pc f) g (f_stack f) (f_mem f) (f_active f) (f_ret f) (f_refund f) (f_world f).
Definition with_stack (s : list Z) (f : frame) : frame :=
  mkFrame (f_pc f) (f_gas f) s (f_mem f) (f_active f) (f_ret f) (f_refund f) (f_world f).
Definition with_mem (m : Z -> Z) (f : frame) : frame :=
  mkFrame (f_pc f) (f_gas f) (f_stack f) m (f_active f) (f_ret f) (f_refund f) (f_world f).
Definition with_active (a : Z) (f : frame) : frame :=
  mkFrame (f_pc f) (f_gas f) (f_stack f) (f_mem f) a (f_ret f) (f_refund f) (f_world f).
Definition with_ret (r : list Z) (f : frame) : frame :=
  mkFrame (f_pc f) (f_gas f) (f_stack f) (f_mem f) (f_active f) r (f_refund f) (f_world f).
Definition add_refund (d : Z) (f : frame) : frame :=
  mkFrame (f_pc f) (f_gas f) (f_stack f) (f_mem f) (f_active f) (f_ret f) (f_refund f + d) (f_world f).
Definition with_world (w : W) (f : frame) : frame :=
  mkFrame (f_pc f) (f_gas f) (f_stack f) (f_mem f) (f_active f) (f_ret f) (f_refund f) w.

(** pay [c] gas or fail *)
Definition charge (c : Z) (f : frame) (k : frame -> outcome) : outcome :=
  if f_gas f <? c then Fail OutOfGas f else k (with_gas (f_gas f - c) f).

(** continue behind a one byte instruction *)
Definition next (f : frame) : outcome := Next (with_pc (f_pc f + 1) f).
(** replace the stack and continue *)
Definition yield (s : list Z) (f : frame) : outcome := next (with_stack s f).
(** the instruction table guarantees the arguments; this case does not occur *)
Definition bad (f : frame) : outcome := Fail StackUnderflow f.

Definition un (g : Z -> Z) (f : frame) : outcome :=
  match f_stack f with a :: s => yield (g a :: s) f | _ => bad f end.
Definition bin (g : Z -> Z -> Z) (f : frame) : outcome :=
  match f_stack f with a :: b :: s => yield (g a b :: s) f | _ => bad f end.
Definition tern (g : Z -> Z -> Z -> Z) (f : frame) : outcome :=
  match f_stack f with a :: b :: c :: s => yield (g a b c :: s) f | _ => bad f end.
Definition push (v : Z) (f : frame) : outcome := yield (v :: f_stack f) f.

(** pay for and perform the expansion of memory to include [off, off+n) *)
Definition mem_fee (f : frame) (off n : Z) : Z := Gmem (expand (f_active f) off n) - Gmem (f_active f).
Definition touch (off n : Z) (f : frame) : frame := with_active (expand (f_active f) off n) f.

(** EIP-2929: cost of accessing an account / a slot, marking it warm *)
Definition account_cost (f : frame) (a : Z) : Z * frame :=
  if rev_ge rev Berlin then
    let '(st, w) := h_access_account H (f_world f) a in
    (match st with COLD => 2600 | WARM => 100 end, with_world w f)
  else (700, f).

Definition i_exp (f : frame) : outcome :=
  match f_stack f with
  | a :: x :: s => charge (50 * byte_count x) f (yield (to_word (a ^ x) :: s))
  | _ => bad f
  end.

Definition i_sha3 (f : frame) : outcome :=
  match f_stack f with
  | off :: n :: s =>
    charge (6 * words n + mem_fee f off n) f (fun f =>
    yield (keccak (read_bytes (f_mem f) off n) :: s) (touch off n f))
  | _ => bad f
  end.

(** BALANCE, EXTCODESIZE, EXTCODEHASH *)
Definition i_account (q : W -> Z -> Z) (f : frame) : outcome :=
  match f_stack f with
  | a :: s =>
    let addr := addr_of a in
    let '(c, f1) := account_cost f addr in
    charge c f1 (fun f2 => yield (q (f_world f2) addr :: s) f2)
  | _ => bad f
  end.

Definition i_tx (q : tx_context -> Z) (f : frame) : outcome := push (q (h_tx_context H (f_world f))) f.

Definition i_calldataload (f : frame) : outcome :=
  un (fun off => be (data_bytes (msg_input msg) off 32)) f.

(** CALLDATACOPY, CODECOPY *)
Definition i_copy (d : list Z) (f : frame) : outcome :=
  match f_stack f with
  | moff :: doff :: n :: s =>
    charge (3 * words n + mem_fee f moff n) f (fun f =>
    yield s (with_mem (write_bytes (f_mem f) moff (data_bytes d doff n)) (touch moff n f)))
  | _ => bad f
  end.

(** The host copies code from offset coff (64 bit); what it does not provide reads as zero. *)
Definition i_extcodecopy (f : frame) : outcome :=
  match f_stack f with
  | a :: moff :: coff :: n :: s =>
    let addr := addr_of a in
    charge (mem_fee f moff n) f (fun f1 =>
    let '(c, f2) := account_cost f1 addr in
    charge (3 * words n + c) f2 (fun f3 =>
    let src := if (coff <? 2 ^ 64) && (0 <? n) then h_copy_code H (f_world f3) addr coff n else [] in
    yield s (with_mem (write_bytes (f_mem f3) moff (data_bytes src 0 n)) (touch moff n f3))))
  | _ => bad f
  end.

Definition i_returndatacopy (f : frame) : outcome :=
  match f_stack f with
  | moff :: doff :: n :: s =>
    charge (3 * words n + mem_fee f moff n) f (fun f' =>
    if zlen (f_ret f') <? doff + n then Fail ReturnDataOutOfBounds f'
    else yield s (with_mem (write_bytes (f_mem f') moff (data_bytes (f_ret f') doff n)) (touch moff n f')))
  | _ => bad f
  end.

(** the 256 most recent complete blocks *)
Definition i_blockhash (f : frame) : outcome :=
  let cur := tx_number (h_tx_context H (f_world f)) in
  un (fun n => if (cur - 256 <=? n) && (n <? cur) then h_block_hash H (f_world f) n else 0) f.

Definition i_blobhash (f : frame) : outcome :=
  let hs := tx_blob_hashes (h_tx_context H (f_world f)) in
  un (fun i => if i <? zlen hs then nth (Z.to_nat i) hs 0 else 0) f.

Definition i_mload (f : frame) : outcome :=
  match f_stack f with
  | off :: s => charge (mem_fee f off 32) f (fun f =>
                yield (be (read_bytes (f_mem f) off 32) :: s) (touch off 32 f))
  | _ => bad f
  end.
Definition i_mstore (f : frame) : outcome :=
  match f_stack f with
  | off :: v :: s => charge (mem_fee f off 32) f (fun f =>
                     yield s (with_mem (write_bytes (f_mem f) off (be_bytes 32 v)) (touch off 32 f)))
  | _ => bad f
  end.
Definition i_mstore8 (f : frame) : outcome :=
  match f_stack f with
  | off :: v :: s => charge (mem_fee f off 1) f (fun f =>
                     yield s (with_mem (write_bytes (f_mem f) off [v mod 256]) (touch off 1 f)))
  | _ => bad f
  end.
(** EIP-5656; all bytes are read before any is written *)
Definition i_mcopy (f : frame) : outcome :=
  match f_stack f with
  | dst :: src :: n :: s =>
    let a := expand (expand (f_active f) src n) dst n in
    charge (3 * words n + (Gmem a - Gmem (f_active f))) f (fun f =>
    yield s (with_mem (write_bytes (f_mem f) dst (read_bytes (f_mem f) src n)) (with_active a f)))
  | _ => bad f
  end.

Definition slot_cost (f : frame) (k : Z) : Z * frame :=
  if rev_ge rev Berlin then
    let '(st, w) := h_access_storage H (f_world f) self k in
    (match st with COLD => 2100 | WARM => 100 end, with_world w f)
  else (800, f).
Definition i_sload (f : frame) : outcome :=
  match f_stack f with
  | k :: s => let '(c, f1) := slot_cost f k in
              charge c f1 (fun f2 => yield (h_get_storage H (f_world f2) self k :: s) f2)
  | _ => bad f
  end.
Definition i_sstore (f : frame) : outcome :=
  match f_stack f with
  | k :: v :: s =>
    if f_gas f <=? 2300 then Fail OutOfGas f
    else
      let '(cold, f1) :=
        if rev_ge rev Berlin then
          let '(st, w) := h_access_storage H (f_world f) self k in
          (match st with COLD => true | WARM => false end, with_world w f)
        else (true, f) in
      let '(st, w) := h_set_storage H (f_world f1) self k v in
      charge (sstore_cost rev cold st) (with_world w f1) (fun f2 =>
      yield s (add_refund (sstore_refund rev cold st) f2))
  | _ => bad f
  end.
Definition i_tload (f : frame) : outcome := un (fun k => h_get_transient H (f_world f) self k) f.
Definition i_tstore (f : frame) : outcome :=
  match f_stack f with
  | k :: v :: s => yield s (with_world (h_set_transient H (f_world f) self k v) f)
  | _ => bad f
  end.

Definition jump_to (d : Z) (f : frame) : outcome :=
  if valid_dest d then Next (with_pc d f) else Fail BadJump f.
Definition i_jump (f : frame) : outcome :=
  match f_stack f with d :: s => if valid_dest d then Next (with_pc d (with_stack s f)) else Fail BadJump f | _ => bad f end.
Definition i_jumpi (f : frame) : outcome :=
  match f_stack f with
  | d :: c :: s => if c =? 0 then yield s f
                   else if valid_dest d then Next (with_pc d (with_stack s f)) else Fail BadJump f
  | _ => bad f
  end.

(** PUSHn: the n bytes behind the instruction, big endian *)
Definition i_push (n : Z) (f : frame) : outcome :=
  Next (with_pc (f_pc f + 1 + n) (with_stack (be (data_bytes code (f_pc f + 1) n) :: f_stack f) f)).
Definition i_dup (n : Z) (f : frame) : outcome :=
  match nth_error (f_stack f) (Z.to_nat (n - 1)) with Some v => push v f | None => bad f end.
(** exchange the top with the element n below *)
Definition i_swap (n : Z) (f : frame) : outcome :=
  match f_stack f with
  | a :: s =>
    match nth_error s (Z.to_nat (n - 1)) with
    | Some b => yield (b :: firstn (Z.to_nat (n - 1)) s ++ a :: skipn (Z.to_nat n) s) f
    | None => bad f
    end
  | _ => bad f
  end.

Definition i_log (n : Z) (f : frame) : outcome :=
  match f_stack f with
  | off :: len :: s =>
    charge (8 * len + mem_fee f off len) f (fun f =>
    let topics := firstn (Z.to_nat n) s in
    yield (skipn (Z.to_nat n) s)
      (with_world (h_emit_log H (f_world f) self (read_bytes (f_mem f) off len) topics) (touch off len f)))
  | _ => bad f
  end.

Definition i_return (h : halt) (f : frame) : outcome :=
  match f_stack f with
  | off :: n :: s =>
    charge (mem_fee f off n) f (fun f =>
    let f' := touch off n f in
    Halt h (read_bytes (f_mem f) off n) (with_pc (f_pc f + 1) (with_stack s f')))
  | _ => bad f
  end.

Definition i_selfdestruct (f : frame) : outcome :=
  match f_stack f with
  | a :: s =>
    let ben := addr_of a in
    let new_account := (0 <? h_get_balance H (f_world f) self) && negb (h_account_exists H (f_world f) ben) in
    let '(cold, f1) :=
      if rev_ge rev Berlin then
        let '(st, w) := h_access_account H (f_world f) ben in
        (match st with COLD => true | WARM => false end, with_world w f)
      else (false, f) in
    charge ((if new_account then 25000 else 0) + (if cold then 2600 else 0)) f1 (fun f2 =>
    let '(first, w) := h_selfdestruct H (f_world f2) self ben in
    let f3 := with_world w f2 in
    let f4 := if first && negb (rev_ge rev London) then add_refund 24000 f3 else f3 in
    Halt Stopped [] (with_pc (f_pc f + 1) (with_stack s f4)))
  | _ => bad f
  end.

(** all but one 64th (EIP-150) *)
Definition all_but_64th (g : Z) : Z := g - g / 64.

(** ** Instructions that ask the host for a nested execution *)
(** either the outcome is known, or a message is to be sent in host state [w], whose answer decides *)
Inductive request : Type :=
| Now (o : outcome)
| Ask (w : W) (m : message) (k : cresult -> W -> outcome).
Definition answer (q : request) : outcome :=
  match q with
  | Now o => o
  | Ask w m k => let '(r, w') := call w m in k r w'
  end.
Definition asked (q : request) : option (W * message) :=
  match q with Now _ => None | Ask w m _ => Some (w, m) end.
Definition q_charge (c : Z) (f : frame) (k : frame -> request) : request :=
  if f_gas f <? c then Now (Fail OutOfGas f) else k (with_gas (f_gas f - c) f).

(** CREATE / CREATE2 *)
Definition q_create (two : bool) (f : frame) : request :=
  let go (value off n salt : Z) (s : list Z) :=
    if 1024 <? msg_depth msg then Now (Fail CreateDepth f)
    else
    q_charge (mem_fee f off n) f (fun f1 =>
    if rev_ge rev Shanghai && (49152 <? n) then Now (Fail InitCodeTooLarge f)
    else
    q_charge ((if rev_ge rev Shanghai then 2 * words n else 0) + (if two then 6 * words n else 0)) f1 (fun f2 =>
    let f3 := touch off n (with_ret [] f2) in
    if h_get_balance H (f_world f3) self <? value then Now (yield (0 :: s) f3)
    else
      let g := all_but_64th (f_gas f3) in
      let m := mkMsg (if two then K_CREATE2 else K_CREATE) 0 (msg_depth msg + 1) g 0 self
                     (read_bytes (f_mem f3) off n) value salt 0 None in
      Ask (f_world f3) m (fun r w =>
      let f4 := with_world w (add_refund (cr_gas_refund r)
                  (with_gas (f_gas f3 - g + cr_gas_left r) f3)) in
      match cr_status r with
      | EVMC_SUCCESS => yield (cr_create_address r :: s) f4
      | EVMC_REVERT => yield (0 :: s) (with_ret (cr_output r) f4)
      | _ => yield (0 :: s) f4
      end))) in
  match two, f_stack f with
  | false, v :: off :: n :: s => go v off n 0 s
  | true, v :: off :: n :: salt :: s => go v off n salt s
  | _, _ => Now (bad f)
  end.
Definition i_create (two : bool) (f : frame) : outcome := answer (q_create two f).

Inductive call_op : Set := OpCall | OpCallCode | OpDelegateCall | OpStaticCall.

(** CALL, CALLCODE, DELEGATECALL, STATICCALL *)
Definition q_call (k : call_op) (f : frame) : request :=
  let go (greq a value ioff isz ooff osz : Z) (s : list Z) :=
    let addr := addr_of a in
    let transfers := negb (value =? 0) in
    if 1024 <? msg_depth msg then Now (Fail CallDepth f)
    else
    let act := expand (expand (f_active f) ioff isz) ooff osz in
    q_charge (Gmem act - Gmem (f_active f)) f (fun f1 =>
    if match k with OpCall => transfers && static | _ => false end then Now (Fail StaticViolation f)
    else
    let '(c, f2) := account_cost f1 addr in
    let new_account := match k with OpCall => transfers && negb (h_account_exists H (f_world f2) addr) | _ => false end in
    q_charge (c + (if transfers then 9000 else 0) + (if new_account then 25000 else 0)) f2 (fun f3 =>
    let f4 := with_ret [] (with_active act f3) in
    let avail := f_gas f4 in
    let fwd := Z.min greq (all_but_64th avail) in
    let stipend := if transfers then 2300 else 0 in
    if transfers && (h_get_balance H (f_world f4) self <? value)
    then Now (yield (0 :: s) (with_gas (avail + stipend) f4))
    else
      let m := mkMsg
        (match k with OpDelegateCall => K_DELEGATECALL | OpCallCode => K_CALLCODE | _ => K_CALL end)
        (match k with OpStaticCall => EVMC_STATIC | _ => msg_flags msg end)
        (msg_depth msg + 1)
        (fwd + stipend)
        (match k with OpCall | OpStaticCall => addr | _ => self end)
        (match k with OpDelegateCall => msg_sender msg | _ => self end)
        (read_bytes (f_mem f4) ioff isz)
        (match k with OpDelegateCall => msg_value msg | _ => value end)
        0 addr None in
      Ask (f_world f4) m (fun r w =>
      let out := cr_output r in
      let f5 := with_world w (add_refund (cr_gas_refund r) (with_gas (avail - fwd + cr_gas_left r) f4)) in
      let f6 := with_ret out (with_mem (write_bytes (f_mem f5) ooff (firstn (Z.to_nat (Z.min osz (zlen out))) out)) f5) in
      yield (bool_word (status_eqb (cr_status r) EVMC_SUCCESS) :: s) f6))) in
  match k, f_stack f with
  | OpCall, g :: a :: v :: io :: is :: oo :: os :: s => go g a v io is oo os s
  | OpCallCode, g :: a :: v :: io :: is :: oo :: os :: s => go g a v io is oo os s
  | OpDelegateCall, g :: a :: io :: is :: oo :: os :: s => go g a 0 io is oo os s
  | OpStaticCall, g :: a :: io :: is :: oo :: os :: s => go g a 0 io is oo os s
  | _, _ => Now (bad f)
  end.
Definition i_call (k : call_op) (f : frame) : outcome := answer (q_call k f).

(** ** The effect of each instruction, after its base fee has been paid *)
Definition exec (b : Z) (f : frame) : outcome :=
  match b with
  | 0x00 => Halt Stopped [] (with_pc (f_pc f + 1) f)
  | 0x01 => bin (fun a b => to_word (a + b)) f
  | 0x02 => bin (fun a b => to_word (a * b)) f
  | 0x03 => bin (fun a b => to_word (a - b)) f
  | 0x04 => bin w_div f
  | 0x05 => bin w_sdiv f
  | 0x06 => bin w_mod f
  | 0x07 => bin w_smod f
  | 0x08 => tern w_addmod f
  | 0x09 => tern w_mulmod f
  | 0x0A => i_exp f
  | 0x0B => bin w_signextend f
  | 0x10 => bin (fun a b => bool_word (a <? b)) f
  | 0x11 => bin (fun a b => bool_word (b <? a)) f
  | 0x12 => bin (fun a b => bool_word (signed a <? signed b)) f
  | 0x13 => bin (fun a b => bool_word (signed b <? signed a)) f
  | 0x14 => bin (fun a b => bool_word (a =? b)) f
  | 0x15 => un (fun a => bool_word (a =? 0)) f
  | 0x16 => bin Z.land f
  | 0x17 => bin Z.lor f
  | 0x18 => bin Z.lxor f
  | 0x19 => un (fun a => U - 1 - a) f
  | 0x1A => bin w_byte f
  | 0x1B => bin w_shl f
  | 0x1C => bin w_shr f
  | 0x1D => bin w_sar f
  | 0x20 => i_sha3 f
  | 0x30 => push self f
  | 0x31 => i_account (h_get_balance H) f
  | 0x32 => i_tx tx_origin f
  | 0x33 => push (msg_sender msg) f
  | 0x34 => push (msg_value msg) f
  | 0x35 => i_calldataload f
  | 0x36 => push (zlen (msg_input msg)) f
  | 0x37 => i_copy (msg_input msg) f
  | 0x38 => push (zlen code) f
  | 0x39 => i_copy code f
  | 0x3A => i_tx tx_gas_price f
  | 0x3B => i_account (h_get_code_size H) f
  | 0x3C => i_extcodecopy f
  | 0x3D => push (zlen (f_ret f)) f
  | 0x3E => i_returndatacopy f
  | 0x3F => i_account (h_get_code_hash H) f
  | 0x40 => i_blockhash f
  | 0x41 => i_tx tx_coinbase f
  | 0x42 => i_tx tx_timestamp f
  | 0x43 => i_tx tx_number f
  | 0x44 => i_tx tx_prev_randao f
  | 0x45 => i_tx tx_gas_limit f
  | 0x46 => i_tx tx_chain_id f
  | 0x47 => push (h_get_balance H (f_world f) self) f
  | 0x48 => i_tx tx_base_fee f
  | 0x49 => i_blobhash f
  | 0x4A => i_tx tx_blob_base_fee f
  | 0x50 => match f_stack f with _ :: s => yield s f | _ => bad f end
  | 0x51 => i_mload f
  | 0x52 => i_mstore f
  | 0x53 => i_mstore8 f
  | 0x54 => i_sload f
  | 0x55 => i_sstore f
  | 0x56 => i_jump f
  | 0x57 => i_jumpi f
  | 0x58 => push (f_pc f) f
  | 0x59 => push (f_active f) f
  | 0x5A => push (f_gas f) f
  | 0x5B => next f
  | 0x5C => i_tload f
  | 0x5D => i_tstore f
  | 0x5E => i_mcopy f
  | 0x5F => push 0 f
  | 0xF0 => i_create false f
  | 0xF1 => i_call OpCall f
  | 0xF2 => i_call OpCallCode f
  | 0xF3 => i_return Returned f
  | 0xF4 => i_call OpDelegateCall f
  | 0xF5 => i_create true f
  | 0xFA => i_call OpStaticCall f
  | 0xFD => i_return Reverted f
  | 0xFF => i_selfdestruct f
  | _ =>
    if (0x60 <=? b) && (b <=? 0x7F) then i_push (b - 0x5F) f
    else if (0x80 <=? b) && (b <=? 0x8F) then i_dup (b - 0x7F) f
    else if (0x90 <=? b) && (b <=? 0x9F) then i_swap (b - 0x8F) f
    else if (0xA0 <=? b) && (b <=? 0xA4) then i_log (b - 0xA0) f
    else Fail InvalidInstruction f
  end.

(** ** One step: checks in order, base fee, effect *)
Definition step (f : frame) : outcome :=
  let b := code_at code (f_pc f) in
  match instruction b with
  | None => if f_gas f <? 0 then Fail OutOfGas f else Fail InvalidInstruction f
  | Some i =>
    let h := zlen (f_stack f) in
    if negb (rev_ge rev (in_since i)) then Fail UndefinedInstruction f
    else if in_stateful i && static then Fail StaticViolation f
    else if h <? in_args i then Fail StackUnderflow f
    else if 1024 <? h - in_args i + in_results i then Fail StackOverflow f
    else charge (in_fee i) f (exec b)
  end.

(** the nested execution that the instruction at pc asks the host for, if any *)
Definition asks (f : frame) : option (W * message) :=
  let b := code_at code (f_pc f) in
  match instruction b with
  | None => None
  | Some i =>
    let h := zlen (f_stack f) in
    if negb (rev_ge rev (in_since i)) || (in_stateful i && static) || (h <? in_args i) ||
       (1024 <? h - in_args i + in_results i) || (f_gas f <? in_fee i) then None
    else
      let f1 := with_gas (f_gas f - in_fee i) f in
      match b with
      | 0xF0 => asked (q_create false f1)
      | 0xF1 => asked (q_call OpCall f1)
      | 0xF2 => asked (q_call OpCallCode f1)
      | 0xF4 => asked (q_call OpDelegateCall f1)
      | 0xF5 => asked (q_create true f1)
      | 0xFA => asked (q_call OpStaticCall f1)
      | _ => None
      end
  end.

(** n steps *)
Inductive steps : nat -> frame -> frame -> Prop :=
| steps_0 : forall f, steps 0 f f
| steps_S : forall n f f1 f2, step f = Next f1 -> steps n f1 f2 -> steps (S n) f f2.

(** A complete run ends with the first halting or failing instruction. *)
Inductive runs : frame -> outcome -> Prop :=
| runs_halt : forall f h out f', step f = Halt h out f' -> runs f (Halt h out f')
| runs_fail : forall f e f', step f = Fail e f' -> runs f (Fail e f')
| runs_step : forall f f1 o, step f = Next f1 -> runs f1 o -> runs f o.

(** the same, as a function: at most [n] instructions; [Next f] means not finished yet *)
Fixpoint run_for (n : nat) (f : frame) : outcome :=
  match n with
  | O => Next f
  | S n => match step f with Next f1 => run_for n f1 | o => o end
  end.

Definition initial (w : W) : frame := mkFrame 0 (msg_gas msg) [] (fun _ => 0) 0 [] 0 w.

End Semantics.
