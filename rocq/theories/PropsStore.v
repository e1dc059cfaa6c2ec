(** C27, C28: storage writes. *)
From Verif Require Import Base Host SpecEvm SpecVm Vm SpecStep Client SpecHost GoStorage
  ClientFacts OpFacts4 StoreFacts PropFacts PropFacts5 Toy.
From Coq Require Import Lia ZArith List Bool.
Import ListNotations.

(** ** C27 *)
(** [storage_host H committed] (SpecHost.v): a host that keeps storage, classifies writes as the Go side does
    (GetStorageStatus, GoStorage.v) and considers dirty slots warm; [eip_sstore_cost] and [eip_sstore_refund] are the
    formulas of the EIPs in terms of original, current and new value. *)
Theorem C27_sstore : forall W (g : setting W), setting_ok g -> forall committed, storage_host (g_host g) committed ->
  forall v w rv code m si rest k x cold w1,
  at_op g v code m si 0x55 -> static m = false -> si_stack si = rest ++ [x; k] ->
  slot_cold (g_host g) rv w (msg_recipient m) k = (cold, w1) ->
  let a := msg_recipient m in
  let cost := eip_sstore_cost rv cold (committed w a k) (h_get_storage (g_host g) w a k) x in
  let refund := eip_sstore_refund rv (committed w a k) (h_get_storage (g_host g) w a k) x in
  let w2 := snd (h_set_storage (g_host g) w1 a k x) in
  (msg_gas m <= 2300 -> out_of_gas g v w rv code m si) /\
  (2300 < msg_gas m < cost -> fails_with g v w rv code m si EVMC_OUT_OF_GAS w2) /\
  (2300 < msg_gas m -> cost <= msg_gas m ->
     steps_to g v w rv code m si (running rv (si_pc si + 1) (msg_gas m - cost) (si_refunds si + refund) rest (whole_words (si_mem si)) (si_ret si)) w2) /\
  (forall a' k', h_get_storage (g_host g) w2 a' k' = if (a' =? a) && (k' =? k) then x else h_get_storage (g_host g) w a' k') /\
  (forall a' k', committed w2 a' k' = committed w a' k').
Proof. exact (@op_sstore_eip). Qed.
Example C27_host : storage_host (g_host (toy_setting [])) ty_committed. Proof. apply toy_storage. Qed.
(** clearing the cold slot 1, which holds 7 *)
Example C27_case : steps_to (toy_setting []) (vm_new 0 0) toy0 London [0x55] (toy_msg 10000 []) (toy_in 0 [0; 1] [] []) (running London 1 5000 4800 [] [] [])
  (mkToy [(0x11, 1, 0)] [(0x11, 1)] [] [] 100 []). Proof. toy_one. Qed.
(** restoring it *)
Example C27_restore : steps_to (toy_setting []) (vm_new 0 0) (mkToy [(0x11, 1, 0)] [(0x11, 1)] [] [] 100 []) Istanbul [0x55] (toy_msg 10000 []) (toy_in 0 [7; 1] [] [])
  (running Istanbul 1 9200 (-10800) [] [] []) (mkToy [(0x11, 1, 7); (0x11, 1, 0)] [(0x11, 1)] [] [] 100 []). Proof. toy_one. Qed.
(** the classification of writes by the host, over all values *)
Theorem C27_formulas : forall rv cold o c n, (cold = true -> o = c) ->
  sstore_cost rv cold (GetStorageStatus o c n) = eip_sstore_cost rv cold o c n /\
  sstore_refund rv cold (GetStorageStatus o c n) = eip_sstore_refund rv o c n.
Proof. exact (fun rv cold o c n H => conj (status_cost rv cold o c n) (status_refund rv cold o c n H)). Qed.
Print Assumptions C27_sstore.
Print Assumptions C27_formulas.

(** ** C28 *)
(** [stores g committed rv w r w'] (SpecHost.v): a history of SSTORE instructions in any frames, which have granted [r] *)
Theorem C28_net_refund : forall W (g : setting W), setting_ok g -> forall committed, storage_host (g_host g) committed ->
  forall rv w r w', (forall a k, h_get_storage (g_host g) w a k = committed w a k) -> stores g committed rv w r w' -> 0 <= r.
Proof. exact (@stores_nonneg). Qed.
(** "is determined by the sequence as EIP-3529 prescribes": each write contributes the refund of C27 *)
Example C28_case : exists r w', stores (toy_setting []) ty_committed London toy0 r w' /\ r = 2800.
Proof. exact toy_stores. Qed.
Print Assumptions C28_net_refund.
