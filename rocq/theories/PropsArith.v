(** C14 - C16: arithmetic and bitwise instructions. *)
From Verif Require Import Base Host SpecEvm SpecVm Vm SpecStep Client SpecHost SpecOps
  ClientFacts OpFacts ApiFacts PropFacts PropFacts4 Toy.
From Coq Require Import Lia ZArith List Bool.
Import ListNotations.

(** The tables [arithmetic2], [arithmetic3], [bitwise2], [unary] (SpecOps.v) list op code, gas and mathematical function. *)

(** ** C14 *)
Theorem C14_binary : forall W (g : setting W), setting_ok g -> forall v w rv code m si op fee fn rest a b,
  In (op, fee, fn) arithmetic2 -> at_op g v code m si op -> si_stack si = rest ++ [b; a] -> fee <= msg_gas m ->
  steps_to g v w rv code m si (running rv (si_pc si + 1) (msg_gas m - fee) (si_refunds si) (rest ++ [fn a b]) (whole_words (si_mem si)) (si_ret si)) w.
Proof. exact (@arith_binary). Qed.
(** ADDMOD, MULMOD *)
Theorem C14_ternary : forall W (g : setting W), setting_ok g -> forall v w rv code m si op fee fn rest a b c,
  In (op, fee, fn) arithmetic3 -> at_op g v code m si op -> si_stack si = rest ++ [c; b; a] -> fee <= msg_gas m ->
  steps_to g v w rv code m si (running rv (si_pc si + 1) (msg_gas m - fee) (si_refunds si) (rest ++ [fn a b c]) (whole_words (si_mem si)) (si_ret si)) w.
Proof. exact (@op_tern). Qed.
(** ISZERO (and NOT, C15) *)
Theorem C14_unary : forall W (g : setting W), setting_ok g -> forall v w rv code m si op fee fn rest a,
  In (op, fee, fn) unary -> at_op g v code m si op -> si_stack si = rest ++ [a] -> fee <= msg_gas m ->
  steps_to g v w rv code m si (running rv (si_pc si + 1) (msg_gas m - fee) (si_refunds si) (rest ++ [fn a]) (whole_words (si_mem si)) (si_ret si)) w.
Proof. exact (@op_un). Qed.
(** with too little gas they fail *)
Theorem C14_unpaid : forall W (g : setting W), setting_ok g -> forall v w rv code m si op fee n,
  In (op, fee, n) (costs arithmetic2 2 ++ costs bitwise2 2 ++ costs arithmetic3 3 ++ costs unary 1) -> at_op g v code m si op ->
  n <= zlen (si_stack si) -> msg_gas m < fee -> out_of_gas g v w rv code m si.
Proof. exact (@arith_unpaid). Qed.
(** -7 / 2 = -3, -7 rem 2 = -1, the largest numbers multiplied modulo a smaller one, -2^255 / -1 *)
Example C14_sdiv : steps_to (toy_setting []) (vm_new 0 0) toy0 London [0x05] (toy_msg 10 []) (toy_in 0 [2; 2 ^ 256 - 7] [] []) (running London 1 5 0 [2 ^ 256 - 3] [] []) toy0. Proof. toy_one. Qed.
Example C14_smod : steps_to (toy_setting []) (vm_new 0 0) toy0 London [0x07] (toy_msg 10 []) (toy_in 0 [2; 2 ^ 256 - 7] [] []) (running London 1 5 0 [2 ^ 256 - 1] [] []) toy0. Proof. toy_one. Qed.
Example C14_sdiv_min : steps_to (toy_setting []) (vm_new 0 0) toy0 London [0x05] (toy_msg 10 []) (toy_in 0 [2 ^ 256 - 1; 2 ^ 255] [] []) (running London 1 5 0 [2 ^ 255] [] []) toy0. Proof. toy_one. Qed.
Example C14_mulmod : steps_to (toy_setting []) (vm_new 0 0) toy0 London [0x09] (toy_msg 10 []) (toy_in 0 [12; 2 ^ 256 - 1; 2 ^ 256 - 1] [] []) (running London 1 2 0 [9] [] []) toy0. Proof. toy_one. Qed.
Print Assumptions C14_binary.
Print Assumptions C14_ternary.
Print Assumptions C14_unary.
Print Assumptions C14_unpaid.

(** ** C15 *)
Theorem C15_bitwise : forall W (g : setting W), setting_ok g -> forall v w rv code m si op fee fn rest a b,
  In (op, fee, fn) bitwise2 -> at_op g v code m si op -> si_stack si = rest ++ [b; a] -> fee <= msg_gas m ->
  steps_to g v w rv code m si (running rv (si_pc si + 1) (msg_gas m - fee) (si_refunds si) (rest ++ [fn a b]) (whole_words (si_mem si)) (si_ret si)) w.
Proof. exact (@bitwise_binary). Qed.
Theorem C15_not : forall W (g : setting W), setting_ok g -> forall v w rv code m si rest a,
  at_op g v code m si 0x19 -> si_stack si = rest ++ [a] -> 3 <= msg_gas m ->
  steps_to g v w rv code m si (running rv (si_pc si + 1) (msg_gas m - 3) (si_refunds si) (rest ++ [2 ^ 256 - 1 - a]) (whole_words (si_mem si)) (si_ret si)) w.
Proof. exact (@bitwise_not). Qed.
(** the functions of [bitwise2] bit by bit: what they mean for bit [i] of the result *)
Theorem C15_bits : forall n v i, is_word n -> is_word v -> 0 <= i < 256 ->
  Z.testbit (shift_left n v) i = (if n <=? i then Z.testbit v (i - n) else false) /\
  Z.testbit (shift_right n v) i = (if i + n <? 256 then Z.testbit v (i + n) else false) /\
  Z.testbit (arithmetic_shift n v) i = Z.testbit v (Z.min (i + n) 255) /\
  Z.testbit (sign_extend n v) i = Z.testbit v (Z.min i (Z.min (8 * n + 7) 255)) /\
  Z.testbit (2 ^ 256 - 1 - v) i = negb (Z.testbit v i) /\
  Z.testbit (byte_of n v) i = (if (n <? 32) && (i <? 8) then Z.testbit v (8 * (31 - n) + i) else false).
Proof. exact bit_by_bit. Qed.
Example C15_sar : steps_to (toy_setting []) (vm_new 0 0) toy0 London [0x1D] (toy_msg 10 []) (toy_in 0 [2 ^ 256 - 8; 1] [] []) (running London 1 7 0 [2 ^ 256 - 4] [] []) toy0. Proof. toy_one. Qed.
Example C15_sar_far : steps_to (toy_setting []) (vm_new 0 0) toy0 London [0x1D] (toy_msg 10 []) (toy_in 0 [2 ^ 256 - 8; 2 ^ 64] [] []) (running London 1 7 0 [2 ^ 256 - 1] [] []) toy0. Proof. toy_one. Qed.
Example C15_signextend : steps_to (toy_setting []) (vm_new 0 0) toy0 London [0x0B] (toy_msg 10 []) (toy_in 0 [0x12F0; 0] [] []) (running London 1 5 0 [2 ^ 256 - 16] [] []) toy0. Proof. toy_one. Qed.
Print Assumptions C15_bitwise.
Print Assumptions C15_not.
Print Assumptions C15_bits.

(** ** C16 *)
(** [n] is the number of significant bytes of the exponent *)
Theorem C16_exp : forall W (g : setting W), setting_ok g -> forall v w rv code m si rest a x n,
  at_op g v code m si 0x0A -> si_stack si = rest ++ [x; a] -> 0 <= n -> x < 256 ^ n -> n = 0 \/ 256 ^ (n - 1) <= x ->
  (10 + 50 * n <= msg_gas m ->
     steps_to g v w rv code m si (running rv (si_pc si + 1) (msg_gas m - (10 + 50 * n)) (si_refunds si) (rest ++ [a ^ x mod 2 ^ 256])
       (whole_words (si_mem si)) (si_ret si)) w) /\
  (msg_gas m < 10 + 50 * n -> out_of_gas g v w rv code m si).
Proof. exact (@op_exp). Qed.
Example C16_case : steps_to (toy_setting []) (vm_new 0 0) toy0 London [0x0A] (toy_msg 200 []) (toy_in 0 [256; 3] [] []) (running London 1 90 0 [3 ^ 256 mod 2 ^ 256] [] []) toy0. Proof. toy_one. Qed.
Print Assumptions C16_exp.
