(** Keccak-256, written from the FIPS 202 description of the Keccak sponge (section 3: step mappings, section 4: sponge
    construction), with the capacity 512 and the padding 10*1 of the original Keccak submission (no domain bits), bit by bit.
    Nothing here refers to the code. *)
From Coq Require Import ZArith List Bool.
Import ListNotations.
Open Scope Z_scope.

(** the state: bit z of lane (x, y), with x, y < 5 and z < 64 *)
Definition bits := Z -> Z -> Z -> bool.

(** 3.2.1: theta *)
Definition column (A : bits) (x z : Z) : bool :=
  xorb (A x 0 z) (xorb (A x 1 z) (xorb (A x 2 z) (xorb (A x 3 z) (A x 4 z)))).
Definition theta (A : bits) : bits := fun x y z =>
  xorb (A x y z) (xorb (column A ((x - 1) mod 5) z) (column A ((x + 1) mod 5) ((z - 1) mod 64))).

(** 3.2.2: rho; the walk (x, y) -> (y, 2x + 3y) from (1, 0) meets every lane but (0, 0); the lane met in step t is rotated by
    (t + 1)(t + 2) / 2 *)
Fixpoint walk (t : nat) : Z * Z :=
  match t with O => (1, 0) | S t => let '(x, y) := walk t in (y, (2 * x + 3 * y) mod 5) end.
Definition offset (x y : Z) : Z :=
  if (x =? 0) && (y =? 0) then 0
  else match find (fun t => (fst (walk t) =? x) && (snd (walk t) =? y)) (seq 0 24) with
       | Some t => let t := Z.of_nat t in (t + 1) * (t + 2) / 2
       | None => 0
       end.
Definition rho (A : bits) : bits := fun x y z => A x y ((z - offset x y) mod 64).

(** 3.2.3: pi *)
Definition pi (A : bits) : bits := fun x y z => A ((x + 3 * y) mod 5) x z.
(** 3.2.4: chi *)
Definition chi (A : bits) : bits := fun x y z =>
  xorb (A x y z) (negb (A ((x + 1) mod 5) y z) && A ((x + 2) mod 5) y z).

(** 3.2.5: iota; the round constants come from a shift register *)
Fixpoint register (t : nat) : list bool :=
  match t with
  | O => [true; false; false; false; false; false; false; false]
  | S t =>
      match register t with
      | [r0; r1; r2; r3; r4; r5; r6; r7] => [r7; r0; r1; r2; xorb r3 r7; xorb r4 r7; xorb r5 r7; r6]
      | r => r
      end
  end.
Definition rc (t : nat) : bool := nth 0 (register (Nat.modulo t 255)) false.
Definition constant (round : nat) (z : Z) : bool :=
  existsb (fun j => (z =? 2 ^ Z.of_nat j - 1) && rc (j + 7 * round)) (seq 0 7).
Definition iota (round : nat) (A : bits) : bits := fun x y z =>
  if (x =? 0) && (y =? 0) then xorb (A x y z) (constant round z) else A x y z.

(** 3.3, 3.4: Keccak-f[1600], 24 rounds *)
Definition one_round (A : bits) (round : nat) : bits := iota round (chi (pi (rho (theta A)))).
Definition keccak_f (A : bits) : bits := fold_left one_round (seq 0 24) A.

(** 4: the sponge; r = 1088 bits of every block are added to the state, lane by lane *)
Definition rate : nat := 1088.
Definition absorb (A : bits) (block : list bool) : bits :=
  keccak_f (fun x y z => xorb (A x y z) (nth (Z.to_nat (64 * (5 * y + x) + z)) block false)).
(** 5.1: a one, as few zeros as needed, a one *)
Definition padding (len : nat) : list bool := [true] ++ repeat false (Z.to_nat ((- Z.of_nat len - 2) mod 1088)) ++ [true].
(** [blocks n m]: the first [n] blocks of [m] *)
Fixpoint blocks (n : nat) (m : list bool) : list (list bool) :=
  match n with O => [] | S n => firstn rate m :: blocks n (skipn rate m) end.
Definition sponge (m : list bool) : bits :=
  let p := m ++ padding (length m) in fold_left absorb (blocks (Nat.div (length p) rate) p) (fun _ _ _ => false).
(** the first 256 bits of the state *)
Definition keccak_bits (m : list bool) : list bool :=
  map (fun i => sponge m (Z.of_nat i / 64) 0 (Z.of_nat i mod 64)) (seq 0 256).

(** B.1: the bits of a byte string, the lowest bit of each byte first *)
Definition to_bits (bytes : list Z) : list bool := flat_map (fun b => map (fun i => Z.testbit b (Z.of_nat i)) (seq 0 8)) bytes.

(** [digest data h]: h are the 32 bytes of the Keccak-256 of the bytes [data] *)
Definition digest (data h : list Z) : Prop :=
  length h = 32%nat /\ Forall (fun b => 0 <= b < 256) h /\ to_bits h = keccak_bits (to_bits data).
