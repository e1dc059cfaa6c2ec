(** The Keccak-256 of LFVM: go/interpreter/lfvm/keccak.h (C) and keccak.go (its Go callers).  uint64_t values are integers
    in [0, 2^64).  Reads and writes outside an array are outcomes ([Undef]).  Machines are little-endian: [to_le64] (56-60)
    is the identity (on a big-endian machine keccak_32, 434-438, would also need the conversion it lacks).  The two
    implementations selected at start-up (314-342) are the same function compiled twice. *)
From Verif Require Import Base.
From Coq Require Import ZArith List Bool.
Import ListNotations.
Open Scope Z_scope.

(** keccak.h:78-80 *)
Definition rol (x s : Z) : Z := Z.lor (u64 (Z.shiftl x s)) (Z.shiftr x (64 - s)).
(** the operator ~ on uint64_t *)
Definition not64 (x : Z) : Z := Z.lxor x (2 ^ 64 - 1).

(** keccak.h:82-90 *)
Definition round_constants : list Z := [0x0000000000000001; 0x0000000000008082; 0x800000000000808a; 0x8000000080008000;
  0x000000000000808b; 0x0000000080000001; 0x8000000080008081; 0x8000000000008009;
  0x000000000000008a; 0x0000000000000088; 0x0000000080008009; 0x000000008000000a;
  0x000000008000808b; 0x800000000000008b; 0x8000000000008089; 0x8000000000008003;
  0x8000000000008002; 0x8000000000000080; 0x000000000000800a; 0x800000008000000a;
  0x8000000080008081; 0x8000000000008080; 0x0000000080000001; 0x8000000080008008].

(** keccak.h:150-218: round n, Axx -> Exx; [rc] is the round constant read from the table *)
Definition round_even (rc : Z) (s : list Z) : list Z :=
  match s with
  | [Aba; Abe; Abi; Abo; Abu; Aga; Age; Agi; Ago; Agu; Aka; Ake; Aki; Ako; Aku; Ama; Ame; Ami; Amo; Amu; Asa; Ase; Asi; Aso; Asu] =>
      let Ba := Z.lxor (Z.lxor (Z.lxor (Z.lxor Aba Aga) Aka) Ama) Asa in
      let Be := Z.lxor (Z.lxor (Z.lxor (Z.lxor Abe Age) Ake) Ame) Ase in
      let Bi := Z.lxor (Z.lxor (Z.lxor (Z.lxor Abi Agi) Aki) Ami) Asi in
      let Bo := Z.lxor (Z.lxor (Z.lxor (Z.lxor Abo Ago) Ako) Amo) Aso in
      let Bu := Z.lxor (Z.lxor (Z.lxor (Z.lxor Abu Agu) Aku) Amu) Asu in
      let Da := Z.lxor Bu (rol Be 1) in
      let De := Z.lxor Ba (rol Bi 1) in
      let Di := Z.lxor Be (rol Bo 1) in
      let Do_ := Z.lxor Bi (rol Bu 1) in
      let Du := Z.lxor Bo (rol Ba 1) in
      let Ba := Z.lxor Aba Da in
      let Be := rol (Z.lxor Age De) 44 in
      let Bi := rol (Z.lxor Aki Di) 43 in
      let Bo := rol (Z.lxor Amo Do_) 21 in
      let Bu := rol (Z.lxor Asu Du) 14 in
      let Eba := Z.lxor (Z.lxor Ba (Z.land (not64 Be) Bi)) rc in
      let Ebe := Z.lxor Be (Z.land (not64 Bi) Bo) in
      let Ebi := Z.lxor Bi (Z.land (not64 Bo) Bu) in
      let Ebo := Z.lxor Bo (Z.land (not64 Bu) Ba) in
      let Ebu := Z.lxor Bu (Z.land (not64 Ba) Be) in
      let Ba := rol (Z.lxor Abo Do_) 28 in
      let Be := rol (Z.lxor Agu Du) 20 in
      let Bi := rol (Z.lxor Aka Da) 3 in
      let Bo := rol (Z.lxor Ame De) 45 in
      let Bu := rol (Z.lxor Asi Di) 61 in
      let Ega := Z.lxor Ba (Z.land (not64 Be) Bi) in
      let Ege := Z.lxor Be (Z.land (not64 Bi) Bo) in
      let Egi := Z.lxor Bi (Z.land (not64 Bo) Bu) in
      let Ego := Z.lxor Bo (Z.land (not64 Bu) Ba) in
      let Egu := Z.lxor Bu (Z.land (not64 Ba) Be) in
      let Ba := rol (Z.lxor Abe De) 1 in
      let Be := rol (Z.lxor Agi Di) 6 in
      let Bi := rol (Z.lxor Ako Do_) 25 in
      let Bo := rol (Z.lxor Amu Du) 8 in
      let Bu := rol (Z.lxor Asa Da) 18 in
      let Eka := Z.lxor Ba (Z.land (not64 Be) Bi) in
      let Eke := Z.lxor Be (Z.land (not64 Bi) Bo) in
      let Eki := Z.lxor Bi (Z.land (not64 Bo) Bu) in
      let Eko := Z.lxor Bo (Z.land (not64 Bu) Ba) in
      let Eku := Z.lxor Bu (Z.land (not64 Ba) Be) in
      let Ba := rol (Z.lxor Abu Du) 27 in
      let Be := rol (Z.lxor Aga Da) 36 in
      let Bi := rol (Z.lxor Ake De) 10 in
      let Bo := rol (Z.lxor Ami Di) 15 in
      let Bu := rol (Z.lxor Aso Do_) 56 in
      let Ema := Z.lxor Ba (Z.land (not64 Be) Bi) in
      let Eme := Z.lxor Be (Z.land (not64 Bi) Bo) in
      let Emi := Z.lxor Bi (Z.land (not64 Bo) Bu) in
      let Emo := Z.lxor Bo (Z.land (not64 Bu) Ba) in
      let Emu := Z.lxor Bu (Z.land (not64 Ba) Be) in
      let Ba := rol (Z.lxor Abi Di) 62 in
      let Be := rol (Z.lxor Ago Do_) 55 in
      let Bi := rol (Z.lxor Aku Du) 39 in
      let Bo := rol (Z.lxor Ama Da) 41 in
      let Bu := rol (Z.lxor Ase De) 2 in
      let Esa := Z.lxor Ba (Z.land (not64 Be) Bi) in
      let Ese := Z.lxor Be (Z.land (not64 Bi) Bo) in
      let Esi := Z.lxor Bi (Z.land (not64 Bo) Bu) in
      let Eso := Z.lxor Bo (Z.land (not64 Bu) Ba) in
      let Esu := Z.lxor Bu (Z.land (not64 Ba) Be) in
      [Eba; Ebe; Ebi; Ebo; Ebu; Ega; Ege; Egi; Ego; Egu; Eka; Eke; Eki; Eko; Eku; Ema; Eme; Emi; Emo; Emu; Esa; Ese; Esi; Eso; Esu]
  | _ => s
  end.

(** keccak.h:219-286: round n + 1, Exx -> Axx; [rc] is the round constant read from the table *)
Definition round_odd (rc : Z) (s : list Z) : list Z :=
  match s with
  | [Eba; Ebe; Ebi; Ebo; Ebu; Ega; Ege; Egi; Ego; Egu; Eka; Eke; Eki; Eko; Eku; Ema; Eme; Emi; Emo; Emu; Esa; Ese; Esi; Eso; Esu] =>
      let Ba := Z.lxor (Z.lxor (Z.lxor (Z.lxor Eba Ega) Eka) Ema) Esa in
      let Be := Z.lxor (Z.lxor (Z.lxor (Z.lxor Ebe Ege) Eke) Eme) Ese in
      let Bi := Z.lxor (Z.lxor (Z.lxor (Z.lxor Ebi Egi) Eki) Emi) Esi in
      let Bo := Z.lxor (Z.lxor (Z.lxor (Z.lxor Ebo Ego) Eko) Emo) Eso in
      let Bu := Z.lxor (Z.lxor (Z.lxor (Z.lxor Ebu Egu) Eku) Emu) Esu in
      let Da := Z.lxor Bu (rol Be 1) in
      let De := Z.lxor Ba (rol Bi 1) in
      let Di := Z.lxor Be (rol Bo 1) in
      let Do_ := Z.lxor Bi (rol Bu 1) in
      let Du := Z.lxor Bo (rol Ba 1) in
      let Ba := Z.lxor Eba Da in
      let Be := rol (Z.lxor Ege De) 44 in
      let Bi := rol (Z.lxor Eki Di) 43 in
      let Bo := rol (Z.lxor Emo Do_) 21 in
      let Bu := rol (Z.lxor Esu Du) 14 in
      let Aba := Z.lxor (Z.lxor Ba (Z.land (not64 Be) Bi)) rc in
      let Abe := Z.lxor Be (Z.land (not64 Bi) Bo) in
      let Abi := Z.lxor Bi (Z.land (not64 Bo) Bu) in
      let Abo := Z.lxor Bo (Z.land (not64 Bu) Ba) in
      let Abu := Z.lxor Bu (Z.land (not64 Ba) Be) in
      let Ba := rol (Z.lxor Ebo Do_) 28 in
      let Be := rol (Z.lxor Egu Du) 20 in
      let Bi := rol (Z.lxor Eka Da) 3 in
      let Bo := rol (Z.lxor Eme De) 45 in
      let Bu := rol (Z.lxor Esi Di) 61 in
      let Aga := Z.lxor Ba (Z.land (not64 Be) Bi) in
      let Age := Z.lxor Be (Z.land (not64 Bi) Bo) in
      let Agi := Z.lxor Bi (Z.land (not64 Bo) Bu) in
      let Ago := Z.lxor Bo (Z.land (not64 Bu) Ba) in
      let Agu := Z.lxor Bu (Z.land (not64 Ba) Be) in
      let Ba := rol (Z.lxor Ebe De) 1 in
      let Be := rol (Z.lxor Egi Di) 6 in
      let Bi := rol (Z.lxor Eko Do_) 25 in
      let Bo := rol (Z.lxor Emu Du) 8 in
      let Bu := rol (Z.lxor Esa Da) 18 in
      let Aka := Z.lxor Ba (Z.land (not64 Be) Bi) in
      let Ake := Z.lxor Be (Z.land (not64 Bi) Bo) in
      let Aki := Z.lxor Bi (Z.land (not64 Bo) Bu) in
      let Ako := Z.lxor Bo (Z.land (not64 Bu) Ba) in
      let Aku := Z.lxor Bu (Z.land (not64 Ba) Be) in
      let Ba := rol (Z.lxor Ebu Du) 27 in
      let Be := rol (Z.lxor Ega Da) 36 in
      let Bi := rol (Z.lxor Eke De) 10 in
      let Bo := rol (Z.lxor Emi Di) 15 in
      let Bu := rol (Z.lxor Eso Do_) 56 in
      let Ama := Z.lxor Ba (Z.land (not64 Be) Bi) in
      let Ame := Z.lxor Be (Z.land (not64 Bi) Bo) in
      let Ami := Z.lxor Bi (Z.land (not64 Bo) Bu) in
      let Amo := Z.lxor Bo (Z.land (not64 Bu) Ba) in
      let Amu := Z.lxor Bu (Z.land (not64 Ba) Be) in
      let Ba := rol (Z.lxor Ebi Di) 62 in
      let Be := rol (Z.lxor Ego Do_) 55 in
      let Bi := rol (Z.lxor Eku Du) 39 in
      let Bo := rol (Z.lxor Ema Da) 41 in
      let Bu := rol (Z.lxor Ese De) 2 in
      let Asa := Z.lxor Ba (Z.land (not64 Be) Bi) in
      let Ase := Z.lxor Be (Z.land (not64 Bi) Bo) in
      let Asi := Z.lxor Bi (Z.land (not64 Bo) Bu) in
      let Aso := Z.lxor Bo (Z.land (not64 Bu) Ba) in
      let Asu := Z.lxor Bu (Z.land (not64 Ba) Be) in
      [Aba; Abe; Abi; Abo; Abu; Aga; Age; Agi; Ago; Agu; Aka; Ake; Aki; Ako; Aku; Ama; Ame; Ami; Amo; Amu; Asa; Ase; Asi; Aso; Asu]
  | _ => s
  end.

(** keccak.h:148-287: the loop over n = 0, 2, .. 22 *)
Fixpoint rounds (n : nat) (count : nat) (s : list Z) : list Z :=
  match count with
  | O => s
  | S k => rounds (n + 2) k (round_odd (nth (n + 1) round_constants 0) (round_even (nth n round_constants 0) s))
  end.
(** keccak.h:107-315, 317-342: keccakf1600_implementation and both keccakf1600_best; the state array is read into variables
    before the loop (122-146) and written back after it (289-313) *)
Definition keccakf1600 (s : list Z) : list Z := rounds 0 12 s.

(** a little-endian word *)
Fixpoint little (bs : list Z) : Z := match bs with [] => 0 | b :: bs => b + 256 * little bs end.
(** keccak.h:63-73: load_le reads eight bytes *)
Definition load_le (data : list Z) : res Z :=
  if 8 <=? zlen data then Ok (little (firstn 8 data)) else Undef UB_mem_oob.
(** state[i] ^= v *)
Definition xor_at (s : list Z) (i : nat) (v : Z) : res (list Z) :=
  match nth_error s i with Some x => Ok (list_upd s i (Z.lxor x v)) | None => Undef UB_mem_oob end.

(** keccak.h:358-361: the loop over the words of a block; [n] words to go *)
Fixpoint xor_words (n : nat) (i : nat) (s : list Z) (data : list Z) : res (list Z * list Z) :=
  match n with
  | O => Ok (s, data)
  | S k => do! w <- load_le data; do! s <- xor_at s i w; xor_words k (S i) s (skipn 8 data)
  end.
Definition block_size : Z := (1600 - 256 * 2) / 8.
Definition word_size : Z := 8.
(** keccak.h:357-366: whole blocks; [size] is the number of bytes left *)
Fixpoint whole_blocks (fuel : nat) (s : list Z) (data : list Z) (size : Z) : res (list Z * list Z * Z) :=
  if block_size <=? size
  then match fuel with
       | O => NoFuel
       | S fuel => do! '(s, data) <- xor_words (Z.to_nat (block_size / word_size)) 0 s data;
                   whole_blocks fuel (keccakf1600 s) data (size - block_size)
       end
  else Ok (s, data, size).
(** keccak.h:370-375: whole words of the last block; [i] is state_iter *)
Fixpoint whole_words (fuel : nat) (i : nat) (s : list Z) (data : list Z) (size : Z) : res (nat * list Z * list Z * Z) :=
  if word_size <=? size
  then match fuel with
       | O => NoFuel
       | S fuel => do! w <- load_le data; do! s <- xor_at s i w;
                   whole_words fuel (S i) s (skipn 8 data) (size - word_size)
       end
  else Ok (i, s, data, size).
(** a write through last_word_iter, [i] bytes into last_word *)
Definition put_byte (word : list Z) (i : nat) (b : Z) : res (list Z) :=
  if Nat.ltb i (length word) then Ok (list_upd word i b) else Undef UB_mem_oob.
(** keccak.h:377-382: the bytes of the last, incomplete word *)
Fixpoint last_bytes (fuel : nat) (i : nat) (word : list Z) (data : list Z) (size : Z) : res (nat * list Z) :=
  if 0 <? size
  then match fuel, data with
       | O, _ => NoFuel
       | _, [] => Undef UB_mem_oob
       | S fuel, b :: data => do! word <- put_byte word i b; last_bytes fuel (S i) word data (size - 1)
       end
  else Ok (i, word).
(** the eight bytes of a word in memory *)
Definition bytes_le (w : Z) : list Z := map (fun k => (w / 2 ^ (8 * Z.of_nat k)) mod 256) (seq 0 8).
(** keccak.h:390-391 (and the union of 50-55): the bytes of the first words of the state *)
Definition output (words : nat) (s : list Z) : list Z := flat_map bytes_le (firstn words s).

(** keccak.h:344-392, with bits = 256, and 394-399; [in] is the array at the pointer, of length [size] *)
Definition tosca_lfvm_keccak256 (data : list Z) : res (list Z) :=
  let fuel := S (length data) in
  do! '(s, data, size) <- whole_blocks fuel (repeat 0 25) data (zlen data);
  do! '(i, s, data, size) <- whole_words fuel 0 s data size;
  do! '(j, word) <- last_bytes fuel 0 (repeat 0 8) data size;
  do! word <- put_byte word j 0x01;
  do! s <- xor_at s i (little word);
  do! s <- xor_at s (Z.to_nat (block_size / word_size - 1)) 0x8000000000000000;
  Ok (output (Z.to_nat (32 / word_size)) (keccakf1600 s)).

(** keccak.h:401-447 *)
Definition tosca_lfvm_keccak256_32byte (a b c d : Z) : res (list Z) :=
  let s := list_upd (list_upd (list_upd (list_upd (repeat 0 25) 0 a) 1 b) 2 c) 3 d in
  do! s <- xor_at s 4 0x01;
  do! s <- xor_at s (Z.to_nat (block_size / word_size - 1)) 0x8000000000000000;
  Ok (output 4 (keccakf1600 s)).

(** keccak.go:54-60: Keccak256; [empty] is emptyKeccak256Hash (52), which golang.org/x/crypto/sha3 computes *)
Definition Keccak256 (empty : list Z) (data : list Z) : res (list Z) :=
  if zlen data =? 0 then Ok empty else tosca_lfvm_keccak256 data.
(** one argument of keccak.go:65-77: data[8k+7]<<56 | .. | data[8k]<<0, on uint64 values *)
Definition go_word (data : list Z) (k : nat) : Z :=
  let d i := nth (8 * k + i) data 0 in
  Z.lor (Z.lor (Z.lor (Z.lor (Z.lor (Z.lor (Z.lor (Z.shiftl (d 7%nat) 56) (Z.shiftl (d 6%nat) 48)) (Z.shiftl (d 5%nat) 40))
    (Z.shiftl (d 4%nat) 32)) (Z.shiftl (d 3%nat) 24)) (Z.shiftl (d 2%nat) 16)) (Z.shiftl (d 1%nat) 8)) (Z.shiftl (d 0%nat) 0).
(** keccak.go:62-79: Keccak256For32byte, of an array of 32 bytes *)
Definition Keccak256For32byte (data : list Z) : res (list Z) :=
  tosca_lfvm_keccak256_32byte (go_word data 0) (go_word data 1) (go_word data 2) (go_word data 3).
