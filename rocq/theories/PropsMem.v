(** C10 - C13, C18, C19: memory and data. *)
From Verif Require Import Base Host SpecEvm SpecVm Memory Interp Vm SpecStep Client SpecHost
  MemFacts ClientFacts OpFacts OpFacts2 OpFacts5 ApiFacts RunFacts PropFacts PropFacts3 Toy.
From Coq Require Import Lia ZArith List Bool.
Import ListNotations.

(** ** C10 *)
(** memory of [a] bytes (whole words); an access of [n] bytes at [off] makes it [expand a off n] bytes; [Gmem] is the
    quadratic cost of a size (SpecEvm.v).  Exactly the affordable costs are exact; the rest exceed what can be paid. *)
Theorem C10_expansion_cost : forall a off n gas,
  a = 32 * words a -> 0 <= a -> 0 <= off < 2 ^ 256 -> 0 <= n < 2 ^ 256 -> 0 <= gas -> gas + Gmem a < 2 ^ 54 ->
  exists c o k, memory_expansion_cost a off n = Ok (c, o, k) /\ 0 <= c < 2 ^ 63 /\ 0 <= o < 2 ^ 64 /\ 0 <= k < 2 ^ 64 /\
    (Gmem (expand a off n) - Gmem a <= gas -> c = Gmem (expand a off n) - Gmem a /\ k = n /\ (n <> 0 -> o = off)) /\
    (gas < Gmem (expand a off n) - Gmem a -> gas < c) /\
    (n = 0 -> c = 0).
Proof. exact expansion_cost. Qed.
Example C10_case : memory_expansion_cost 64 1000 24 = Ok (92, 1000, 24). Proof. vm_compute. reflexivity. Qed.
Example C10_huge : memory_expansion_cost 64 (2 ^ 255) 1 = Ok (2 ^ 63 - 1, 0, 0). Proof. vm_compute. reflexivity. Qed.
Print Assumptions C10_expansion_cost.

(** ** C11 *)
Theorem C11_run : forall W (g : setting W), setting_ok g -> forall v w rv code m n so w',
  reach g v -> exec_ok (g_code_of g) code m -> observed g v w rv code m n so w' -> so_step so = STEP_RUNNING ->
  exists k, zlen (so_mem so) = 32 * k /\ 3 * k + k * k / 512 <= msg_gas m - so_gas so.
Proof. exact (@run_memory). Qed.
Theorem C11_step : forall W (g : setting W), setting_ok g -> forall v w rv code m si so w' v',
  reach g v -> exec_ok (g_code_of g) code m -> step_ok code m si -> si_status si = STEP_RUNNING -> 0 <= msg_gas m ->
  StepN g v w rv code m si = Ok (so, w', v') ->
  (exists k, zlen (so_mem so) = 32 * k) /\ zlen (si_mem si) <= zlen (so_mem so) /\
  (let before := words (zlen (si_mem si)) in let after := words (zlen (so_mem so)) in
   (3 * after + after * after / 512) - (3 * before + before * before / 512) <= msg_gas m - so_gas so).
Proof. exact (@step_memory). Qed.
(** PUSH1 7 PUSH1 100 MSTORE: five words *)
Example C11_case : observed (toy_setting [0x00]) (vm_new 0 0) toy0 London [0x60; 7; 0x60; 100; 0x52] (toy_msg 100 []) 3
  (mkOut STEP_RUNNING EVMC_FAILURE London 5 76 0 [] [] (zeros 131 ++ [7] ++ zeros 28) []) toy0.
Proof. toy_observe. Qed.
Print Assumptions C11_run.
Print Assumptions C11_step.

(** ** C12 *)
(** [overwritten mem mem' size dst n byte] (Client.v): [mem'] has [size] bytes; byte [dst+i] is [byte i] for i < n; all
    others are those of [mem], and 0 beyond its end *)
Theorem C12_grow : forall mem off n, mem_ok mem -> 0 <= n -> (n <> 0 -> 0 <= off /\ off + n < 2 ^ 62) ->
  exists mem', mem_grow mem off n = Ok mem' /\ mem_ok mem' /\ overwritten mem mem' (expand (zlen mem) off n) 0 0 (fun _ => 0).
Proof. exact grow_exact. Qed.
Theorem C12_get_span : forall mem off n, mem_ok mem -> 0 <= n -> (n <> 0 -> 0 <= off /\ off + n < 2 ^ 62) ->
  exists mem', mem_get_span false mem off n = Ok (data_bytes mem off n, mem') /\ mem_ok mem' /\ overwritten mem mem' (expand (zlen mem) off n) 0 0 (fun _ => 0).
Proof. exact get_span_exact. Qed.
Theorem C12_write_to : forall mem off n, mem_ok mem -> 0 <= n -> (n <> 0 -> 0 <= off /\ off + n < 2 ^ 62) ->
  exists mem', mem_write_to false mem n off = Ok (data_bytes mem off n, mem') /\ mem_ok mem' /\ overwritten mem mem' (expand (zlen mem) off n) 0 0 (fun _ => 0).
Proof. exact write_to_exact. Qed.
Theorem C12_read_from : forall mem buf off, mem_ok mem -> Forall is_byte buf -> (buf <> [] -> 0 <= off /\ off + zlen buf < 2 ^ 62) ->
  exists mem', mem_read_from false mem buf off = Ok mem' /\ mem_ok mem' /\ overwritten mem mem' (expand (zlen mem) off (zlen buf)) off (zlen buf) (data_at buf).
Proof. exact read_from_exact. Qed.
Theorem C12_read_from_with_size : forall mem buf off n, mem_ok mem -> Forall is_byte buf -> 0 <= n -> (n <> 0 -> 0 <= off /\ off + n < 2 ^ 62) ->
  exists mem', mem_read_from_with_size false mem buf off n = Ok mem' /\ mem_ok mem' /\ overwritten mem mem' (expand (zlen mem) off n) off n (data_at buf).
Proof. exact read_from_with_size_exact. Qed.
Theorem C12_copy : forall mem dst src n, mem_ok mem -> 0 <= n -> (n <> 0 -> 0 <= dst /\ dst + n < 2 ^ 62 /\ 0 <= src /\ src + n < 2 ^ 62) ->
  exists mem', mem_copy false mem dst src n = Ok mem' /\ mem_ok mem' /\
    overwritten mem mem' (expand (expand (zlen mem) src n) dst n) dst n (fun i => data_at mem (src + i)).
Proof. exact copy_exact. Qed.
(** an overlapping copy *)
Example C12_case : mem_ok (map Z.of_nat (seq 0 32)) /\
  mem_copy false (map Z.of_nat (seq 0 32)) 2 0 30 = Ok ([0; 1] ++ map Z.of_nat (seq 0 30)).
Proof. split; [|vm_compute; reflexivity]. split; [cbn; bytes|exists 1; reflexivity]. Qed.
Example C12_short : mem_read_from_with_size false [] [1; 2] 1 5 = Ok ([0; 1; 2] ++ zeros 29). Proof. vm_compute. reflexivity. Qed.
Print Assumptions C12_grow.
Print Assumptions C12_get_span.
Print Assumptions C12_write_to.
Print Assumptions C12_read_from.
Print Assumptions C12_read_from_with_size.
Print Assumptions C12_copy.

(** the instruction MCOPY *)
Theorem C12_mcopy : forall W (g : setting W), setting_ok g -> forall v w rv code m si rest dst src n,
  at_op g v code m si 0x5E -> rev_ge rv Cancun = true -> si_stack si = rest ++ [n; src; dst] ->
  let size := expand (grown (si_mem si) src n) dst n in
  let cost := 3 + 3 * words n + (Gmem size - Gmem (zlen (si_mem si))) in
  (cost <= msg_gas m -> exists mem',
     steps_to g v w rv code m si (running rv (si_pc si + 1) (msg_gas m - cost) (si_refunds si) rest mem' (si_ret si)) w /\
     overwritten (si_mem si) mem' size dst n (fun i => data_at (si_mem si) (src + i))) /\
  (msg_gas m < cost -> out_of_gas g v w rv code m si).
Proof. exact (@op_mcopy). Qed.
Print Assumptions C12_mcopy.

(** ** C13 *)
Theorem C13_mstore : forall W (g : setting W), setting_ok g -> forall v w rv code m si rest off x,
  at_op g v code m si 0x52 -> si_stack si = rest ++ [x; off] ->
  let cost := 3 + growth_cost (si_mem si) off 32 in
  (cost <= msg_gas m -> exists mem',
     steps_to g v w rv code m si (running rv (si_pc si + 1) (msg_gas m - cost) (si_refunds si) rest mem' (si_ret si)) w /\
     overwritten (si_mem si) mem' (grown (si_mem si) off 32) off 32 (fun i => (x / 256 ^ (31 - i)) mod 256)) /\
  (msg_gas m < cost -> out_of_gas g v w rv code m si).
Proof. exact (@op_mstore). Qed.
Theorem C13_mstore8 : forall W (g : setting W), setting_ok g -> forall v w rv code m si rest off x,
  at_op g v code m si 0x53 -> si_stack si = rest ++ [x; off] ->
  let cost := 3 + growth_cost (si_mem si) off 1 in
  (cost <= msg_gas m -> exists mem',
     steps_to g v w rv code m si (running rv (si_pc si + 1) (msg_gas m - cost) (si_refunds si) rest mem' (si_ret si)) w /\
     overwritten (si_mem si) mem' (grown (si_mem si) off 1) off 1 (fun _ => x mod 256)) /\
  (msg_gas m < cost -> out_of_gas g v w rv code m si).
Proof. exact (@op_mstore8). Qed.
Theorem C13_mload : forall W (g : setting W), setting_ok g -> forall v w rv code m si rest off,
  at_op g v code m si 0x51 -> si_stack si = rest ++ [off] ->
  let cost := 3 + growth_cost (si_mem si) off 32 in
  (cost <= msg_gas m -> exists mem',
     steps_to g v w rv code m si (running rv (si_pc si + 1) (msg_gas m - cost) (si_refunds si) (rest ++ [be (data_bytes (si_mem si) off 32)]) mem' (si_ret si)) w /\
     overwritten (si_mem si) mem' (grown (si_mem si) off 32) 0 0 (fun _ => 0)) /\
  (msg_gas m < cost -> out_of_gas g v w rv code m si).
Proof. exact (@op_mload). Qed.
(** an MSTORE of [x] at [off], and an MLOAD at [off2] with the memory that it has left *)
Theorem C13_round_trip : forall W (g : setting W), setting_ok g -> forall v w rv code m si rest off x so w',
  at_op g v code m si 0x52 -> si_stack si = rest ++ [x; off] -> steps_to g v w rv code m si so w' -> so_step so = STEP_RUNNING ->
  forall v2 w2 rv2 code2 m2 si2 rest2 off2,
    at_op g v2 code2 m2 si2 0x51 -> si_mem si2 = so_mem so -> si_stack si2 = rest2 ++ [off2] -> 3 <= msg_gas m2 ->
    (off2 = off ->
       steps_to g v2 w2 rv2 code2 m2 si2 (running rv2 (si_pc si2 + 1) (msg_gas m2 - 3) (si_refunds si2) (rest2 ++ [x]) (so_mem so) (si_ret si2)) w2) /\
    (off2 + 32 <= off \/ off + 32 <= off2 -> off2 + 32 <= zlen (so_mem so) ->
       steps_to g v2 w2 rv2 code2 m2 si2 (running rv2 (si_pc si2 + 1) (msg_gas m2 - 3) (si_refunds si2) (rest2 ++ [be (data_bytes (si_mem si) off2 32)]) (so_mem so) (si_ret si2)) w2).
Proof. exact (@store_load). Qed.
Example C13_store_case : steps_to (toy_setting []) (vm_new 0 0) toy0 London [0x52] (toy_msg 20 []) (toy_in 0 [5; 0x0102; 3] [] [])
  (running London 1 11 0 [5] (zeros 33 ++ [1; 2] ++ zeros 29) []) toy0. Proof. toy_one. Qed.
Example C13_load_case : steps_to (toy_setting []) (vm_new 0 0) toy0 London [0x51] (toy_msg 20 []) (toy_in 0 [3] (zeros 33 ++ [1; 2] ++ zeros 29) [])
  (running London 1 17 0 [0x0102] (zeros 33 ++ [1; 2] ++ zeros 29) []) toy0. Proof. toy_one. Qed.
Print Assumptions C13_mstore.
Print Assumptions C13_mstore8.
Print Assumptions C13_mload.
Print Assumptions C13_round_trip.

(** ** C18 *)
(** [data_at d i] is byte [i] of [d], and 0 beyond its end; [data_bytes d off n] are [n] such bytes (SpecEvm.v) *)
Theorem C18_calldataload : forall W (g : setting W), setting_ok g -> forall v w rv code m si rest off,
  at_op g v code m si 0x35 -> si_stack si = rest ++ [off] -> 3 <= msg_gas m ->
  steps_to g v w rv code m si (running rv (si_pc si + 1) (msg_gas m - 3) (si_refunds si) (rest ++ [be (data_bytes (msg_input m) off 32)]) (whole_words (si_mem si)) (si_ret si)) w.
Proof. exact (@op_calldataload). Qed.
(** CALLDATACOPY and CODECOPY *)
Theorem C18_copy : forall W (g : setting W), setting_ok g -> forall v w rv code m si op src rest n soff dst,
  In (op, src) [(0x37, msg_input m); (0x39, code)] -> at_op g v code m si op -> si_stack si = rest ++ [n; soff; dst] ->
  let cost := 3 + 3 * words n + growth_cost (si_mem si) dst n in
  (cost <= msg_gas m -> exists mem',
     steps_to g v w rv code m si (running rv (si_pc si + 1) (msg_gas m - cost) (si_refunds si) rest mem' (si_ret si)) w /\
     overwritten (si_mem si) mem' (grown (si_mem si) dst n) dst n (fun i => data_at src (soff + i))) /\
  (msg_gas m < cost -> out_of_gas g v w rv code m si).
Proof. exact (@op_copy). Qed.
(** EXTCODECOPY, when the host serves the code [C] of the account *)
Theorem C18_extcodecopy : forall W (g : setting W), setting_ok g -> forall v w rv code m si rest n coff moff a c w1 C,
  at_op g v code m si 0x3C -> si_stack si = rest ++ [n; coff; moff; a] ->
  let addr := a mod 2 ^ 160 in
  account_access (g_host g) rv w addr = (c, w1) ->
  zlen C < 2 ^ 64 -> (forall off n, 0 <= off -> 0 < n -> h_copy_code (g_host g) w1 addr off n = firstn (Z.to_nat n) (skipn (Z.to_nat off) C)) ->
  let grow := growth_cost (si_mem si) moff n in
  let cost := grow + 3 * words n + c in
  (cost <= msg_gas m -> exists mem',
     steps_to g v w rv code m si (running rv (si_pc si + 1) (msg_gas m - cost) (si_refunds si) rest mem' (si_ret si)) w1 /\
     overwritten (si_mem si) mem' (grown (si_mem si) moff n) moff n (fun i => data_at C (coff + i))) /\
  (grow <= msg_gas m < cost -> fails_with g v w rv code m si EVMC_OUT_OF_GAS w1) /\
  (msg_gas m < grow -> out_of_gas g v w rv code m si).
Proof. exact (@op_extcodecopy). Qed.
Example C18_load_case : steps_to (toy_setting []) (vm_new 0 0) toy0 London [0x35] (toy_msg 20 [1; 2; 3]) (toy_in 0 [2] [] []) (running London 1 17 0 [3 * 2 ^ 248] [] []) toy0. Proof. toy_one. Qed.
Example C18_load_far : steps_to (toy_setting []) (vm_new 0 0) toy0 London [0x35] (toy_msg 20 [1; 2; 3]) (toy_in 0 [2 ^ 256 - 1] [] []) (running London 1 17 0 [0] [] []) toy0. Proof. toy_one. Qed.
(** CALLDATACOPY of 5 bytes from offset 1 to address 2 of a memory full of 9s; CODECOPY from far beyond the end *)
Example C18_copy_case : steps_to (toy_setting []) (vm_new 0 0) toy0 London [0x37] (toy_msg 20 [1; 2; 3]) (toy_in 0 [5; 1; 2] (repeat 9 32) [])
  (running London 1 14 0 [] ([9; 9; 2; 3; 0; 0; 0] ++ repeat 9 25) []) toy0. Proof. toy_one. Qed.
Example C18_code_case : steps_to (toy_setting []) (vm_new 0 0) toy0 London [0x39] (toy_msg 20 [1; 2; 3]) (toy_in 0 [5; 2 ^ 255; 2] (repeat 9 32) [])
  (running London 1 14 0 [] ([9; 9; 0; 0; 0; 0; 0] ++ repeat 9 25) []) toy0. Proof. toy_one. Qed.
(** the toy's accounts have the code 1 2 3 *)
Example C18_ext_case : steps_to (toy_setting []) (vm_new 0 0) toy0 Istanbul [0x3C] (toy_msg 1000 []) (toy_in 0 [5; 1; 2; 0x77] (repeat 9 32) [])
  (running Istanbul 1 297 0 [] ([9; 9; 2; 3; 0; 0; 0] ++ repeat 9 25) []) toy0. Proof. toy_one. Qed.
Print Assumptions C18_calldataload.
Print Assumptions C18_copy.
Print Assumptions C18_extcodecopy.

(** ** C19 *)
Theorem C19_returndatacopy : forall W (g : setting W), setting_ok g -> forall v w rv code m si rest n soff dst,
  at_op g v code m si 0x3E -> si_stack si = rest ++ [n; soff; dst] ->
  let cost := 3 + 3 * words n + growth_cost (si_mem si) dst n in
  (cost <= msg_gas m -> soff + n <= zlen (si_ret si) -> exists mem',
     steps_to g v w rv code m si (running rv (si_pc si + 1) (msg_gas m - cost) (si_refunds si) rest mem' (si_ret si)) w /\
     overwritten (si_mem si) mem' (grown (si_mem si) dst n) dst n (fun i => data_at (si_ret si) (soff + i))) /\
  (cost <= msg_gas m -> zlen (si_ret si) < soff + n -> exists so, steps_to g v w rv code m si so w /\ failed rv si EVMC_INVALID_MEMORY_ACCESS so) /\
  (msg_gas m < cost -> out_of_gas g v w rv code m si).
Proof. exact (@op_returndatacopy). Qed.
Example C19_case : steps_to (toy_setting []) (vm_new 0 0) toy0 London [0x3E] (toy_msg 20 []) (toy_in 0 [2; 1; 3] (repeat 9 32) [4; 5; 6])
  (running London 1 14 0 [] ([9; 9; 9; 5; 6] ++ repeat 9 27) [4; 5; 6]) toy0. Proof. toy_one. Qed.
(** offset and size whose sum wraps around to 3 *)
Example C19_wrap : fails_with (toy_setting []) (vm_new 0 0) toy0 London [0x3E] (toy_msg 20 []) (toy_in 0 [4; 2 ^ 256 - 1; 3] (repeat 9 32) [4; 5; 6]) EVMC_INVALID_MEMORY_ACCESS toy0.
Proof. toy_bad. Qed.
Print Assumptions C19_returndatacopy.
