(** C74, C75: Keccak-256 and the hash caches of LFVM. *)
From Coq Require Import Lia ZArith List Bool.
From Verif Require Import Base Lru Keccak SpecKeccak KeccakFacts HashCache HashTop Ledger.
Import ListNotations.
Open Scope Z_scope.

(** ** C74: the hash functions compute Keccak-256 *)
Theorem C74_keccak256 : forall data, Forall (fun b => 0 <= b < 256) data ->
  exists h, tosca_lfvm_keccak256 data = Ok h /\ forall h', digest data h' <-> h' = h.
Proof. exact keccak_total. Qed.
Theorem C74_Keccak256 : forall empty data, Forall (fun b => 0 <= b < 256) data -> digest [] empty ->
  exists h, Keccak256 empty data = Ok h /\ digest data h.
Proof. exact Keccak256_ok. Qed.
Theorem C74_Keccak256For32byte : forall data, length data = 32%nat -> Forall (fun b => 0 <= b < 256) data ->
  exists h, Keccak256For32byte data = Ok h /\ digest data h.
Proof. exact keccak32_ok. Qed.
(** known values: the empty string, 32 zeros, the bytes 0 to 199 (two blocks) *)
Definition c74_empty : list Z :=
  [0xc5; 0xd2; 0x46; 0x01; 0x86; 0xf7; 0x23; 0x3c; 0x92; 0x7e; 0x7d; 0xb2; 0xdc; 0xc7; 0x03; 0xc0; 0xe5; 0x00; 0xb6; 0x53; 0xca; 0x82; 0x27; 0x3b; 0x7b; 0xfa; 0xd8; 0x04; 0x5d; 0x85; 0xa4; 0x70].
Example C74_values : tosca_lfvm_keccak256 [] = Ok c74_empty /\
  Keccak256For32byte (repeat 0 32) = Ok [0x29; 0x0d; 0xec; 0xd9; 0x54; 0x8b; 0x62; 0xa8; 0xd6; 0x03; 0x45; 0xa9; 0x88; 0x38; 0x6f; 0xc8; 0x4b; 0xa6; 0xbc; 0x95; 0x48; 0x40; 0x08; 0xf6; 0x36; 0x2f; 0x93; 0x16; 0x0e; 0xf3; 0xe5; 0x63] /\
  tosca_lfvm_keccak256 (map Z.of_nat (seq 0 200)) = Ok [0xbf; 0xb0; 0xaa; 0x97; 0x86; 0x3e; 0x79; 0x79; 0x43; 0xcf; 0x7c; 0x33; 0xbb; 0x7e; 0x88; 0x0b; 0xb4; 0x54; 0x3f; 0x3d; 0x27; 0x03; 0xc0; 0x92; 0x3c; 0x69; 0x01; 0xc2; 0xaf; 0x57; 0xb8; 0x90].
Proof. split; [|split]; vm_compute; reflexivity. Qed.
Example C74_empty_digest : digest [] c74_empty.
Proof. exact (digest_of [] c74_empty (Forall_nil _) (proj1 C74_values)). Qed.
Print Assumptions C74_keccak256.
Print Assumptions C74_Keccak256.
Print Assumptions C74_Keccak256For32byte.

(** ** C75: hashing through the cache *)
(** one thread: every hash is right, whatever was hashed before *)
Theorem C75_history : forall empty, digest [] empty -> forall capacity32 capacity64 datas, Forall (Forall (fun b => 0 <= b < 256)) datas ->
  exists c, newSha3HashCache empty capacity32 capacity64 = Ok c /\ exists hs c', sha3_history empty datas c = Ok (hs, c') /\ Forall2 digest datas hs.
Proof. exact sha3_cache_ok. Qed.
(** many threads: a hash is right unless the threads entered the cache [capacity] times between the lookup and the return *)
Theorem C75_threads : forall empty, digest [] empty -> forall n hash capacity todo es s, hash_cache empty n hash -> (forall t, Forall (key_ok n) (todo t)) ->
  cache_exec n hash capacity todo es s ->
  forall es1 t es2 k v es3, es = es1 ++ HSection t :: es2 ++ HReturn t k v :: es3 -> sections_in es2 < Z.max 2 capacity -> digest k v.
Proof. exact cache_returns. Qed.
(** and no thread gets stuck or dereferences nil, and the index stays within the capacity *)
Theorem C75_progress : forall empty, digest [] empty -> forall n hash capacity todo es s, hash_cache empty n hash -> (forall t, Forall (key_ok n) (todo t)) ->
  cache_exec n hash capacity todo es s ->
  zlen (c_index (h_list (hs_cache s))) <= Z.max 2 capacity /\
  forall t, hs_threads s t <> mkHT HIdle [] -> exists e s', hstep list_eqb hash s e s' /\ hs_threads s' t <> hs_threads s t.
Proof. exact cache_moves. Qed.
Definition c75_key (b : Z) : list Z := repeat b 32.
Definition c75_todo (t : nat) : list (list Z) := match t with 0%nat => [c75_key 1; c75_key 1] | 1%nat => [c75_key 2; c75_key 3] | _ => [] end.
Lemma c75_keys : forall t, Forall (key_ok 32) (c75_todo t).
Proof. intros [|[|t]]; repeat constructor; lia. Qed.
Definition c75_hash (b : Z) : list Z := match Keccak256For32byte (c75_key b) with Ok h => h | _ => [] end.
(** the second thread overtakes the first, once *)
Example C75_case : exists s, cache_exec 32 Keccak256For32byte 2 c75_todo
  [HCall 0%nat (c75_key 1); HSection 0%nat; HSection 0%nat; HReturn 0%nat (c75_key 1) (c75_hash 1); HCall 0%nat (c75_key 1); HSection 0%nat;
   HCall 1%nat (c75_key 2); HSection 1%nat; HReturn 0%nat (c75_key 1) (c75_hash 1)] s.
Proof. apply (scheduled Keccak256For32byte 32 2 c75_todo [0; 0; 0; 0; 0; 0; 0; 1; 1; 0]%nat); vm_compute; [reflexivity|discriminate]. Qed.
(** beyond: getHash reads the entry after releasing the lock; the entry has been given to another key meanwhile, whose hash is returned *)
Theorem C75_overtaken_refuted : exists es s, cache_exec 32 Keccak256For32byte 2 c75_todo es s /\ In (HReturn 0%nat (c75_key 1) (c75_hash 3)) es /\ c75_hash 3 <> c75_hash 1 /\
  ~ digest (c75_key 1) (c75_hash 3).
Proof.
  assert (hn : c75_hash 3 <> c75_hash 1) by (vm_compute; discriminate).
  eexists. edestruct (scheduled Keccak256For32byte 32 2 c75_todo [0; 0; 0; 0; 0; 0; 0; 1; 1; 1; 1; 1; 1; 1; 1; 1; 0]%nat) as [s hs].
  { vm_compute. reflexivity. } { vm_compute. discriminate. }
  exists s. split; [exact hs|]. split; [vm_compute; repeat (first [left; reflexivity|right])|]. split; [exact hn|].
  intros hd. apply hn. destruct (C74_Keccak256For32byte (c75_key 1) eq_refl) as (h & e & hd'); [repeat constructor; lia|].
  unfold c75_hash at 2. rewrite e. exact (digest_unique _ _ _ hd hd').
Qed.
Print Assumptions C75_history.
Print Assumptions C75_threads.
Print Assumptions C75_progress.
Print Assumptions C75_overtaken_refuted.
