(** Tables of the computational instructions: op code, gas, function on words.  Operands in the order in which they are
    taken from the stack. *)
From Verif Require Import Base Host SpecEvm.

(** two's complement *)
Definition sgn (v : Z) : Z := if v <? 2 ^ 255 then v else v - 2 ^ 256.
Definition uns (z : Z) : Z := z mod 2 ^ 256.
Definition truth (b : bool) : Z := if b then 1 else 0.

Definition arithmetic2 : list (Z * Z * (Z -> Z -> Z)) := [
  (0x01, 3, fun a b => uns (a + b));                                   (* ADD *)
  (0x02, 5, fun a b => uns (a * b));                                   (* MUL *)
  (0x03, 3, fun a b => uns (a - b));                                   (* SUB *)
  (0x04, 5, fun a b => if b =? 0 then 0 else a / b);                   (* DIV *)
  (0x05, 5, fun a b => if b =? 0 then 0 else uns (Z.quot (sgn a) (sgn b)));  (* SDIV *)
  (0x06, 5, fun a b => if b =? 0 then 0 else a mod b);                 (* MOD *)
  (0x07, 5, fun a b => if b =? 0 then 0 else uns (Z.rem (sgn a) (sgn b)));   (* SMOD *)
  (0x10, 3, fun a b => truth (a <? b));                                (* LT *)
  (0x11, 3, fun a b => truth (a >? b));                                (* GT *)
  (0x12, 3, fun a b => truth (sgn a <? sgn b));                        (* SLT *)
  (0x13, 3, fun a b => truth (sgn a >? sgn b));                        (* SGT *)
  (0x14, 3, fun a b => truth (a =? b))                                 (* EQ *)
].
Definition arithmetic3 : list (Z * Z * (Z -> Z -> Z -> Z)) := [
  (0x08, 8, fun a b n => if n =? 0 then 0 else (a + b) mod n);         (* ADDMOD *)
  (0x09, 8, fun a b n => if n =? 0 then 0 else (a * b) mod n)          (* MULMOD *)
].
Definition unary : list (Z * Z * (Z -> Z)) := [
  (0x15, 3, fun a => truth (a =? 0));                                  (* ISZERO *)
  (0x19, 3, fun a => 2 ^ 256 - 1 - a)                                  (* NOT: all 256 bits flipped *)
].
(** the two's complement number in the low k+1 bytes of v *)
Definition sign_extend (k v : Z) : Z :=
  if k <? 31 then let m := 2 ^ (8 * (k + 1)) in let low := v mod m in uns (if low <? m / 2 then low else low - m) else v.
(** byte i of v, 0 being the most significant *)
Definition byte_of (i v : Z) : Z := if i <? 32 then (v / 2 ^ (8 * (31 - i))) mod 256 else 0.
Definition shift_left (n v : Z) : Z := if n <? 256 then uns (v * 2 ^ n) else 0.
Definition shift_right (n v : Z) : Z := if n <? 256 then v / 2 ^ n else 0.
(** division of the signed number by 2^n, rounding towards minus infinity *)
Definition arithmetic_shift (n v : Z) : Z := if n <? 256 then uns (sgn v / 2 ^ n) else if sgn v <? 0 then 2 ^ 256 - 1 else 0.
Definition bitwise2 : list (Z * Z * (Z -> Z -> Z)) := [
  (0x16, 3, Z.land); (0x17, 3, Z.lor); (0x18, 3, Z.lxor);              (* AND, OR, XOR *)
  (0x0B, 5, sign_extend);                                              (* SIGNEXTEND *)
  (0x1A, 3, byte_of);                                                  (* BYTE *)
  (0x1B, 3, shift_left); (0x1C, 3, shift_right); (0x1D, 3, arithmetic_shift) (* SHL, SHR, SAR *)
].

(** the values that an instruction without operands pushes *)
Section Environment.
Context {W : Type}.
Variable H : host W.
Variables (w : W) (m : message) (code : list Z).
(** op code, gas, first revision, value *)
Definition environment : list (Z * Z * revision * Z) := let tx := h_tx_context H w in [
  (0x30, 2, Istanbul, msg_recipient m);          (* ADDRESS *)
  (0x32, 2, Istanbul, tx_origin tx);             (* ORIGIN *)
  (0x33, 2, Istanbul, msg_sender m);             (* CALLER *)
  (0x34, 2, Istanbul, msg_value m);              (* CALLVALUE *)
  (0x36, 2, Istanbul, zlen (msg_input m));       (* CALLDATASIZE *)
  (0x38, 2, Istanbul, zlen code);                (* CODESIZE *)
  (0x3A, 2, Istanbul, tx_gas_price tx);          (* GASPRICE *)
  (0x41, 2, Istanbul, tx_coinbase tx);           (* COINBASE *)
  (0x42, 2, Istanbul, tx_timestamp tx);          (* TIMESTAMP *)
  (0x43, 2, Istanbul, tx_number tx);             (* NUMBER *)
  (0x44, 2, Istanbul, tx_prev_randao tx);        (* DIFFICULTY / PREVRANDAO *)
  (0x45, 2, Istanbul, tx_gas_limit tx);          (* GASLIMIT *)
  (0x46, 2, Istanbul, tx_chain_id tx);           (* CHAINID *)
  (0x47, 5, Istanbul, h_get_balance H w (msg_recipient m)); (* SELFBALANCE *)
  (0x48, 2, London, tx_base_fee tx);             (* BASEFEE *)
  (0x4A, 2, Cancun, tx_blob_base_fee tx);        (* BLOBBASEFEE *)
  (0x5F, 2, Shanghai, 0)                         (* PUSH0 *)
].
End Environment.
