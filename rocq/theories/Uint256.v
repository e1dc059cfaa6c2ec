(** 256-bit words.  Models vm/evmzero/uint256.h and the intx operations used by
    interpreter.cc.  intx itself (third_party/intx) is an empty submodule in /repo; its
    operations are modelled by the algorithms it documents: unsigned wrap-around arithmetic,
    sdivrem through absolute values, slt through sign bits, square-and-multiply exp,
    shifts that yield zero for amounts of 256 and more, byte swap. *)
From Verif Require Import Base.

Definition wrap (z : Z) : Z := z mod 2 ^ 256.

(** uint256.h:24 [kUint256Max = ~uint256_t{0}] *)
Definition kUint256Max : Z := 2 ^ 256 - 1.

(** intx operator+ (interpreter.cc:197) *)
Definition u_add (x y : Z) : Z := wrap (x + y).
(** intx operator* (interpreter.cc:207) *)
Definition u_mul (x y : Z) : Z := wrap (x * y).
(** intx operator- (interpreter.cc:217) *)
Definition u_sub (x y : Z) : Z := wrap (x - y).
(** intx unary minus, used by sdivrem *)
Definition u_neg (x : Z) : Z := wrap (- x).
(** intx operator/ (interpreter.cc:228): division by zero is a fault *)
Definition u_div (x y : Z) : res Z := if y =? 0 then Undef UB_div0 else Ok (x / y).
(** intx operator% (interpreter.cc:252) *)
Definition u_mod (x y : Z) : res Z := if y =? 0 then Undef UB_div0 else Ok (x mod y).

(** intx sign bit test, used by sdivrem / slt *)
Definition sign_bit (x : Z) : bool := Z.testbit x 255.

(** intx::sdivrem (interpreter.cc:240, 264): (quotient, remainder) *)
Definition u_sdivrem (u v : Z) : res (Z * Z) :=
  let u_is_neg := sign_bit u in
  let v_is_neg := sign_bit v in
  let u_abs := if u_is_neg then u_neg u else u in
  let v_abs := if v_is_neg then u_neg v else v in
  if v_abs =? 0 then Undef UB_div0
  else
    let q := u_abs / v_abs in
    let r := u_abs mod v_abs in
    Ok (if xorb u_is_neg v_is_neg then u_neg q else q, if u_is_neg then u_neg r else r).

(** intx::addmod (interpreter.cc:280): the sum is not truncated *)
Definition u_addmod (x y m : Z) : res Z := if m =? 0 then Undef UB_div0 else Ok ((x + y) mod m).
(** intx::mulmod (interpreter.cc:296): the product is not truncated *)
Definition u_mulmod (x y m : Z) : res Z := if m =? 0 then Undef UB_div0 else Ok ((x * y) mod m).

(** intx::slt (interpreter.cc:368, 378) *)
Definition u_slt (x y : Z) : bool :=
  let xn := sign_bit x in
  let yn := sign_bit y in
  if xorb xn yn then xn else x <? y.

(** intx operator<< / >> with a 64-bit or 256-bit amount (interpreter.cc:333-336, 463, 473, 487) *)
Definition u_shl (x n : Z) : Z := if n <? 256 then wrap (Z.shiftl x n) else 0.
Definition u_shr (x n : Z) : Z := if n <? 256 then Z.shiftr x n else 0.

(** intx bitwise operators (interpreter.cc:408-438) *)
Definition u_and (x y : Z) : Z := Z.land x y.
Definition u_or (x y : Z) : Z := Z.lor x y.
Definition u_xor (x y : Z) : Z := Z.lxor x y.
Definition u_not (x : Z) : Z := wrap (Z.lnot x).

(** intx::exp (interpreter.cc:313): while (exponent != 0) { if (exponent & 1) result *= base;
    base *= base; exponent >>= 1; } -- recursion over the bits of the exponent *)
Fixpoint exp_loop (e : positive) (base result : Z) : Z :=
  match e with
  | xH => u_mul result base
  | xO e' => exp_loop e' (u_mul base base) result
  | xI e' => exp_loop e' (u_mul base base) (u_mul result base)
  end.
(** intx::exp with its shortcut for base 2 *)
Definition u_exp (base e : Z) : Z :=
  if base =? 2 then u_shl 1 e
  else match e with Zpos p => exp_loop p base 1 | _ => 1 end.

(** Byte [i] of the little endian representation: uint256.h:44-46 [ToByteArrayLe(v)[i]] *)
Definition byte_le (v i : Z) : Z := Z.land (Z.shiftr v (8 * i)) 255.

Definition count_sig (v : Z) : Z := if v =? 0 then 0 else Z.log2 v / 8 + 1.
(** intx::count_significant_bytes (interpreter.cc:309) *)
Definition count_significant_bytes (v : Z) : Z := count_sig v.

(** Integer value of a little / big endian byte list. *)
Fixpoint z_of_le (bs : list Z) : Z :=
  match bs with [] => 0 | b :: bs' => b + 256 * z_of_le bs' end.
Definition z_of_be (bs : list Z) : Z := z_of_le (rev bs).
(** The [n] low bytes of [v], little endian: uint256.h:26-27 [ToBytes] on a little endian machine *)
Fixpoint bytes_le (n : nat) (v : Z) : list Z :=
  match n with O => [] | S n' => v mod 256 :: bytes_le n' (v / 256) end.

(** intx::bswap for uint256 (interpreter.cc:1083, 1109) *)
Definition u_bswap (v : Z) : Z := z_of_le (rev (bytes_le 32 v)).
(** intx::bswap of a 64-bit word read from memory (interpreter.cc:1392) *)
Definition bswap64_load (bs : list Z) : Z := z_of_le (rev bs).

(** uint256.h:32 [ToEvmcAddress = intx::be::trunc<evmc_address>] *)
Definition to_address (v : Z) : Z := v mod 2 ^ 160.

(** static_cast<uint8_t>(uint256_t) (interpreter.cc:323, 449, 1131) *)
Definition u8 (v : Z) : Z := v mod 256.

(** conversion of a bool to uint256_t (interpreter.cc:348-398, 1793) *)
Definition b2w (b : bool) : Z := if b then 1 else 0.
