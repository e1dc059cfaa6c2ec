(** Models vm/evmzero/sha3_cache.h: Sha3Cache.  Line numbers refer to that file. *)
From Verif Require Import Base Lru.

(** std::array<uint8_t, N>::operator==, the KeyEqual of the two caches (55-56) *)
Fixpoint bytes_eqb (a b : list Z) : bool :=
  match a, b with
  | [], [] => true
  | x :: a', y :: b' => (x =? y) && bytes_eqb a' b'
  | _, _ => false
  end.

(** 55-56: cache_32_, cache_64_ *)
Record sha3 : Type := mkSha3 { h_32 : lru (K:=list Z) (V:=Z); h_64 : lru (K:=list Z) (V:=Z) }.
Definition kSha3Capacity : Z := 1024.
(** a default constructed Sha3Cache (lru_cache.h:33) *)
Definition sha3_new : sha3 :=
  mkSha3 (clear (zeros 32) 0 kSha3Capacity) (clear (zeros 64) 0 kSha3Capacity).

(** 31-49 Hash; [keccak] is ethash::keccak256, the key is a copy of the bytes *)
Definition sha3_hash (keccak : list Z -> Z) (key : list Z) (c : sha3) : res (Z * sha3) :=
  if zlen key =? 32 then
    do! '(h, c32) <- get_or_insert bytes_eqb key (fun _ => keccak key) (h_32 c);
    Ok (h, mkSha3 c32 (h_64 c))
  else if zlen key =? 64 then
    do! '(h, c64) <- get_or_insert bytes_eqb key (fun _ => keccak key) (h_64 c);
    Ok (h, mkSha3 (h_32 c) c64)
  else Ok (keccak key, c).
