(** C20 - C24: the hash cache, the LRU cache and the code analysis cache. *)
From Verif Require Import Base Host SpecEvm SpecVm Vm SpecStep Client SpecHost SpecTop SpecCache Lru LruFacts LruConc LruConcFacts Sha3
  MemoFacts CacheFacts MemFacts ClientFacts OpFacts OpFacts2 ApiFacts RefFacts PropFacts PropFacts6 Toy.
From Coq Require Import Lia ZArith List Bool.
Import ListNotations.

(** ** C20 *)
(** whatever keys were hashed before (32-byte and 64-byte keys are cached, with any evictions): every Hash is the keccak *)
Theorem C20_hash_history : forall keccak keys, exists c, hash_run keccak keys sha3_new = Ok (map keccak keys, c).
Proof. exact hash_history. Qed.
(** the SHA3 instruction of a VM with any history and options, the cache on or off *)
Theorem C20_sha3_instruction : forall W (g : setting W), setting_ok g -> forall v w rv code m si rest n off,
  at_op g v code m si 0x20 -> si_stack si = rest ++ [n; off] ->
  let cost := 30 + 6 * words n + growth_cost (si_mem si) off n in
  (cost <= msg_gas m -> exists mem',
     steps_to g v w rv code m si (running rv (si_pc si + 1) (msg_gas m - cost) (si_refunds si) (rest ++ [g_keccak g (data_bytes (si_mem si) off n)]) mem' (si_ret si)) w /\
     overwritten (si_mem si) mem' (grown (si_mem si) off n) 0 0 (fun _ => 0)) /\
  (msg_gas m < cost -> out_of_gas g v w rv code m si).
Proof. exact (@op_sha3). Qed.
(** the keccak of the toy setting adds up the bytes; keys that hit, miss and are not cached *)
Example C20_case : let sum := fun bs => fold_right Z.add 0 bs in
  match hash_run sum [repeat 1 32; repeat 2 64; repeat 1 32; [7]; repeat 3 32; repeat 2 64] sha3_new with
  | Ok (hs, c) => hs = [32; 128; 32; 7; 96; 128] /\ length (c_index (h_32 c)) = 2%nat /\ length (c_index (h_64 c)) = 1%nat
  | _ => False
  end.
Proof. vm_compute. auto. Qed.
Example C20_case_instruction : steps_to (toy_setting []) (vm_new 0 0) toy0 London [0x20] (toy_msg 100 []) (toy_in 0 [1; 32; 0] (repeat 1 32) [])
  (running London 1 64 0 [1; g_keccak (toy_setting []) (repeat 1 32)] (repeat 1 32) []) toy0.
Proof. toy_one. Qed.
Print Assumptions C20_hash_history.
Print Assumptions C20_sha3_instruction.

(** ** C21 *)
(** [history cap [] os rs l] (SpecCache.v) says what a recency-ordered association list of at most [cap] bindings does *)
Theorem C21_bounded_lru_map : forall K V (keqb : K -> K -> bool), (forall a b, keqb a b = true <-> a = b) ->
  forall (dk : K) (dv : V) cap, 2 <= cap -> forall os, exists rs c l,
  cache_run keqb dk dv cap os (clear dk dv cap) = Ok (rs, c) /\ history cap [] os rs l /\ NoDup (keys l) /\ zlen l <= cap.
Proof. exact (@cache_history). Qed.
(** and it leaves no choice *)
Theorem C21_determined : forall K V cap, 2 <= cap -> forall (os : list (cache_op K V)) rs rs' l l',
  history cap [] os rs l -> history cap [] os rs' l' -> rs = rs' /\ l = l'.
Proof. exact (@history_unique). Qed.
(** in particular, a Get finds nothing or the value last written for its key *)
Theorem C21_get : forall K V (keqb : K -> K -> bool), (forall a b, keqb a b = true <-> a = b) ->
  forall (dk : K) (dv : V) cap, 2 <= cap -> forall os k, exists rs r c,
  cache_run keqb dk dv cap (os ++ [CGet k]) (clear dk dv cap) = Ok (rs ++ [r], c) /\ length rs = length os /\
  (r = None \/ r = last_written keqb k os rs None).
Proof. exact (@get_value). Qed.
(** two entries; 1 is used again before 3 arrives, so 2 is evicted; assigning 3 does not count as a use *)
Example C21_case : match cache_run Z.eqb 0 0 2 [CInsert 1 10; CInsert 2 20; CGet 1; CInsert 3 30; CGet 2; CGet 1; CInsert 3 33; CGetOrInsert 4 40; CGet 3; CClear; CGet 4]
    (clear 0 0 2) with
  | Ok (rs, _) => rs = [Some 10; Some 20; Some 10; Some 30; None; Some 10; Some 33; Some 40; None; None; None]
  | _ => False
  end.
Proof. vm_compute. reflexivity. Qed.
Print Assumptions C21_bounded_lru_map.
Print Assumptions C21_determined.
Print Assumptions C21_get.

(** ** C22 *)
(** no null pointer or out-of-range entry is ever followed *)
Theorem C22_no_bad_pointer : forall K V (keqb : K -> K -> bool), (forall a b, keqb a b = true <-> a = b) ->
  forall (dk : K) (dv : V) cap, 2 <= cap -> forall os u, cache_run keqb dk dv cap os (clear dk dv cap) <> Undef u.
Proof. exact (@never_undefined). Qed.
(** with one entry the first insertion writes through a null pointer, with none the first insertion is out of range *)
Theorem C22_capacity_one_refuted : forall K V (keqb : K -> K -> bool) (dk : K) (dv : V) k v,
  cache_run keqb dk dv 1 [CInsert k v] (clear dk dv 1) = Undef UB_lru_null.
Proof. reflexivity. Qed.
Theorem C22_capacity_zero_refuted : forall K V (keqb : K -> K -> bool) (dk : K) (dv : V) k v,
  cache_run keqb dk dv 0 [CInsert k v] (clear dk dv 0) = Undef UB_lru_oob.
Proof. reflexivity. Qed.
(** the last entry of a fresh cache does hold an out-of-range successor *)
Example C22_case : n_succ (last (c_ents (clear 0 0 3)) (mkEntry 0 0 None None)) = Some 3.
Proof. reflexivity. Qed.
Print Assumptions C22_no_bad_pointer.

(** ** C23 *)
(** any number of threads, each with any list of operations; every interleaving of lock, body, unlock, make_value and return
    steps.  [f] is what the make functions compute; [respects f o] excludes only storing something else explicitly *)
Theorem C23_concurrent_values : forall K V (keqb : K -> K -> bool), (forall a b, keqb a b = true <-> a = b) ->
  forall (dk : K) (dv : V) cap, 2 <= cap -> forall (makes : K -> V -> Prop) (f : K -> V), (forall k v, makes k v -> v = f k) ->
  forall ops es c, (forall t, Forall (respects f) (ops t)) -> cexec keqb dk dv cap makes (c_init dk dv cap ops) es c ->
  forall t o r, In (Return t o r) es -> answer f o r.
Proof. exact (@memo). Qed.
(** every execution looks like one of the abstract cache in which each critical section happens at once *)
Theorem C23_atomic : forall K V (keqb : K -> K -> bool), (forall a b, keqb a b = true <-> a = b) ->
  forall (dk : K) (dv : V) cap, 2 <= cap -> forall (makes : K -> V -> Prop) ops es c,
  cexec keqb dk dv cap makes (c_init dk dv cap ops) es c -> exists a, aexec keqb cap makes (a_init ops) es a.
Proof. exact (@atomic). Qed.
(** the body of a critical section never follows a bad pointer, two threads are never inside, and no execution is stuck *)
Theorem C23_safe : forall K V (keqb : K -> K -> bool), (forall a b, keqb a b = true <-> a = b) ->
  forall (dk : K) (dv : V) cap, 2 <= cap -> forall (makes : K -> V -> Prop) ops es c t o s rest,
  cexec keqb dk dv cap makes (c_init dk dv cap ops) es c ->
  g_threads c t = mkThread (Inside o s) rest -> exists r c', body keqb dk dv cap s (g_cache c) = Ok (r, c').
Proof. exact (@exec_safe). Qed.
Theorem C23_exclusive : forall K V (keqb : K -> K -> bool), (forall a b, keqb a b = true <-> a = b) ->
  forall (dk : K) (dv : V) cap, 2 <= cap -> forall (makes : K -> V -> Prop) ops es c t u,
  cexec keqb dk dv cap makes (c_init dk dv cap ops) es c ->
  holds_lock (t_phase (g_threads c t)) -> holds_lock (t_phase (g_threads c u)) -> t = u.
Proof. exact (@exec_mutex). Qed.
Theorem C23_no_deadlock : forall K V (keqb : K -> K -> bool), (forall a b, keqb a b = true <-> a = b) ->
  forall (dk : K) (dv : V) cap, 2 <= cap -> forall (makes : K -> V -> Prop) ops es c t, (forall k, exists v, makes k v) ->
  cexec keqb dk dv cap makes (c_init dk dv cap ops) es c -> ~ finished (g_threads c t) -> exists e c', cstep keqb dk dv cap makes c e c'.
Proof. exact (@exec_progress). Qed.
(** two threads miss on the same key, both make a value and both insert it *)
Example C23_case : exists c, cexec Z.eqb 0 0 2 (fun k v => v = k * k) (c_init 0 0 2 (fun t => if Nat.ltb t 2 then [OGoi 5] else []))
  [Call 0 (OGoi 5); Call 1 (OGoi 5); Return 1 (OGoi 5) (Some 25); Return 0 (OGoi 5) (Some 25)] c /\ Nat.eqb (length (c_index (g_cache c))) 1 = true.
Proof.
  apply (sched_shows Z.eqb 0 0 2 (fun k => k * k) [0; 1; 0; 0; 0; 1; 1; 1; 1; 0; 1; 1; 1; 1; 0; 0; 0; 0]%nat). vm_compute. auto.
Qed.
Print Assumptions C23_concurrent_values.
Print Assumptions C23_atomic.
Print Assumptions C23_safe.
Print Assumptions C23_exclusive.
Print Assumptions C23_no_deadlock.

(** ** C24 *)
(** [reach g v]: any history of executions, steps, option changes and resets; equal hashes accompany equal codes ([exec_ok]).
    Two such VMs, in particular one whose caches were never on, give the same result and world *)
Theorem C24_same_everywhere : forall W (g : setting W), setting_ok g -> forall v1 v2 w rv code m,
  reach g v1 -> reach g v2 -> exec_ok (g_code_of g) code m ->
  exists r w' v1' v2', Execute g v1 w rv code m = Ok (r, w', v1') /\ Execute g v2 w rv code m = Ok (r, w', v2').
Proof. exact (@same_everywhere). Qed.
(** what the cache returns is what would be computed *)
Theorem C24_cached_analysis : forall W (g : setting W), setting_ok g -> forall v code m, reach g v -> exec_ok (g_code_of g) code m ->
  exists i v', contract_info code (msg_code_hash m) v = Ok (i, v') /\ compute_contract_info code = Ok i.
Proof. exact (@info_cached). Qed.
(** without a hash, with the zero hash, or with the cache off, the cache is neither asked nor filled *)
Theorem C24_uncached : forall code hash v, hash = None \/ hash = Some 0 \/ v_analysis v = false ->
  contract_info code hash v = (do! i <- compute_contract_info code; Ok (i, v)).
Proof. exact info_uncached. Qed.
(** without the assumption the cache does return the analysis of another code *)
Example C24_needs_equal_codes : let v := vm_small 2 in
  match contract_info [0x5B; 0] (Some 7) v with
  | Ok (_, v') => match contract_info [0; 0x5B] (Some 7) v', compute_contract_info [0; 0x5B] with
                  | Ok (i, _), Ok j => ci_targets i = [1; 0] /\ ci_targets j = [0; 1]
                  | _, _ => False
                  end
  | _ => False
  end.
Proof. vm_compute. auto. Qed.
Print Assumptions C24_same_everywhere.
Print Assumptions C24_cached_analysis.
Print Assumptions C24_uncached.
