(** Base definitions shared by the whole model: outcomes with explicit undefined
    behaviour, fixed width integer helpers, and list helpers.
    C++ sources are cited relative to /repo/cpp. *)
From Coq Require Export ZArith List Bool Lia.
Export ListNotations.
Open Scope Z_scope.

(** Reasons for undefined behaviour (or abnormal termination) of the C++ program.
    Models the C++ abstract machine, not a particular function. *)
Inductive ub : Set :=
| UB_stack_oob        (* stack.h:35-101: access outside the 1024 element buffer *)
| UB_stack_uninit     (* stack.h:83-84: read of a slot that was never written *)
| UB_mem_oob          (* memory.h: access outside memory_ *)
| UB_code_oob         (* interpreter.cc:2044: *pc outside padded_code *)
| UB_null_pc          (* interpreter.cc:1930: dereference of the nullptr pc *)
| UB_target_oob       (* interpreter.cc:1870: valid_jump_targets[index] out of range *)
| UB_span_oob         (* std::span::subspan with an offset beyond the span *)
| UB_overflow         (* signed integer overflow *)
| UB_ptr_range        (* formation of a pointer outside its allocation *)
| UB_div0             (* division by zero *)
| UB_lru_null         (* lru_cache.h: null pointer dereference *)
| UB_lru_oob          (* lru_cache.h: pointer outside entries_ dereferenced *)
| UB_prof_oob         (* profiler.h: call_data_ index out of range *)
| UB_length           (* std::vector::resize beyond max_size (terminates: noexcept) *)
.

(** Result of running a piece of C++: a value, undefined behaviour, or model fuel
    exhausted (never a C++ behaviour; excluded in every theorem). *)
Inductive res (A : Type) : Type :=
| Ok (a : A)
| Undef (u : ub)
| NoFuel.
Arguments Ok {A} a.
Arguments Undef {A} u.
Arguments NoFuel {A}.

Definition rbind {A B} (m : res A) (k : A -> res B) : res B :=
  match m with
  | Ok a => k a
  | Undef u => Undef u
  | NoFuel => NoFuel
  end.

Notation "'do!' x <- m ; k" := (rbind m (fun x => k))
  (at level 200, x name, m at level 100, k at level 200, right associativity).
Notation "'do!' ' p <- m ; k" := (rbind m (fun p => k))
  (at level 200, p pattern, m at level 100, k at level 200, right associativity).

(** Fixed-width integers. *)
Definition two64 : Z := 2 ^ 64.
Definition two256 : Z := 2 ^ 256.

(** interpreter.h:87 [kMaxGas = numeric_limits<int64_t>::max()] *)
Definition kMaxGas : Z := 2 ^ 63 - 1.
(** numeric_limits<uint64_t>::max(), used at interpreter.cc:1879 *)
Definition kU64Max : Z := 2 ^ 64 - 1.

Definition in_i64 (z : Z) : bool := (- 2 ^ 63 <=? z) && (z <? 2 ^ 63).

(** Signed 64-bit arithmetic: overflow is undefined behaviour in C++. *)
Definition i64 (z : Z) : res Z := if in_i64 z then Ok z else Undef UB_overflow.
(** Conversion to uint64_t: reduction modulo 2^64. *)
Definition u64 (z : Z) : Z := z mod 2 ^ 64.
(** static_cast<int64_t>(uint64_t): two's complement (C++20). *)
Definition s64 (z : Z) : Z := let m := z mod 2 ^ 64 in if m <? 2 ^ 63 then m else m - 2 ^ 64.
(** static_cast<uint32_t>(...), interpreter.cc:1967 *)
Definition u32 (z : Z) : Z := z mod 2 ^ 32.

(** common/macros.h:24-25: [__builtin_add_overflow] / [__builtin_mul_overflow] with a
    uint64_t (resp. int64_t) destination: (overflowed, wrapped result). *)
Definition add_overflow_u64 (a b : Z) : bool * Z := (negb (a + b <? 2 ^ 64), (a + b) mod 2 ^ 64).
Definition add_overflow_i64 (a b : Z) : bool * Z := (negb (in_i64 (a + b)), s64 (a + b)).
Definition mul_overflow_i64 (a b : Z) : bool * Z := (negb (in_i64 (a * b)), s64 (a * b)).

(** List helpers with Z indices. *)
Definition zlen {A} (l : list A) : Z := Z.of_nat (length l).

Definition znth {A} (l : list A) (i : Z) : option A :=
  if i <? 0 then None else nth_error l (Z.to_nat i).

Fixpoint list_upd {A} (l : list A) (i : nat) (x : A) : list A :=
  match l, i with
  | [], _ => []
  | _ :: l', O => x :: l'
  | y :: l', S i' => y :: list_upd l' i' x
  end.

(** [l] with its elements from index [i] on replaced by [xs] (caller checks the range). *)
Definition splice {A} (l : list A) (i : Z) (xs : list A) : list A :=
  firstn (Z.to_nat i) l ++ xs ++ skipn (Z.to_nat i + length xs) l.

Definition slice {A} (l : list A) (i n : Z) : list A :=
  firstn (Z.to_nat n) (skipn (Z.to_nat i) l).

Definition zeros (n : Z) : list Z := repeat 0 (Z.to_nat n).

Definition is_byte (b : Z) : Prop := 0 <= b < 256.
Definition is_word (v : Z) : Prop := 0 <= v < 2 ^ 256.
Definition is_addr (v : Z) : Prop := 0 <= v < 2 ^ 160.
