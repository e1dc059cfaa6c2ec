(** Models vm/evmzero/memory.h and memory.cc: the byte vector [memory_].
    Parameter [strict]: C++ makes the mere formation of [memory_.data() + offset] undefined
    when offset exceeds the size, even if no byte is accessed.  With [strict = true] this is
    reported as [UB_ptr_range]; with [strict = false] (the main machine) only accesses count. *)
From Verif Require Import Base.

Definition memory := list Z.

(** memory.h:35 GetSize *)
Definition mem_size (m : memory) : Z := zlen m.

(** std::vector<uint8_t>::resize: truncates or appends zeros; throws beyond max_size
    (PTRDIFF_MAX), which terminates because all callers are noexcept. *)
Definition vec_resize (m : memory) (n : Z) : res memory :=
  if 2 ^ 63 - 1 <? n then Undef UB_length
  else Ok (firstn (Z.to_nat n) m ++ zeros (n - zlen m)).

(** memory.h:81-88 Grow; offset, size and the sums are uint64_t *)
Definition mem_grow (m : memory) (offset size : Z) : res memory :=
  if size =? 0 then Ok m
  else
    let new_size := u64 (offset + size) in
    if mem_size m <? new_size then vec_resize m (u64 (u64 (new_size + 31) / 32 * 32))
    else Ok m.

(** formation of the pointer [memory_.data() + offset] (memory.h:41, 48, 59, 61, 68, 76) *)
Definition mem_ptr (strict : bool) (m : memory) (offset : Z) : res Z :=
  if strict && (mem_size m <? offset) then Undef UB_ptr_range else Ok offset.

(** reading [n] bytes through a pointer to offset [p] *)
Definition mem_read (m : memory) (p n : Z) : res (list Z) :=
  if n =? 0 then Ok []
  else if p + n <=? mem_size m then Ok (slice m p n) else Undef UB_mem_oob.

(** writing bytes through a pointer to offset [p] *)
Definition mem_write (m : memory) (p : Z) (bs : list Z) : res memory :=
  match bs with
  | [] => Ok m
  | _ => if p + zlen bs <=? mem_size m then Ok (splice m p bs) else Undef UB_mem_oob
  end.

(** memory.h:39-42 GetSpan: grows, then denotes [size] bytes at [offset]; the model returns
    the bytes of the span (every user reads them, or overwrites them with [mem_write]). *)
Definition mem_get_span (strict : bool) (m : memory) (offset size : Z) : res (list Z * memory) :=
  do! m1 <- mem_grow m offset size;
  do! p <- mem_ptr strict m1 offset;
  do! bs <- mem_read m1 p size;
  Ok (bs, m1).

(** memory.h:46-49 ReadFrom *)
Definition mem_read_from (strict : bool) (m : memory) (buffer : list Z) (offset : Z) : res memory :=
  do! m1 <- mem_grow m offset (zlen buffer);
  do! p <- mem_ptr strict m1 offset;
  mem_write m1 p buffer.

(** memory.h:55-62 ReadFromWithSize *)
Definition mem_read_from_with_size (strict : bool) (m : memory) (buffer : list Z)
           (offset wsize : Z) : res memory :=
  do! m1 <- mem_grow m offset wsize;
  do! p <- mem_ptr strict m1 offset;
  let n := Z.min (zlen buffer) wsize in
  do! m2 <- mem_write m1 p (firstn (Z.to_nat n) buffer);
  do! q <- mem_ptr strict m2 (offset + n);
  mem_write m2 q (zeros (wsize - n)).

(** memory.h:66-69 WriteTo: the bytes written to the buffer of [size] bytes *)
Definition mem_write_to (strict : bool) (m : memory) (size offset : Z) : res (list Z * memory) :=
  do! m1 <- mem_grow m offset size;
  do! p <- mem_ptr strict m1 offset;
  do! bs <- mem_read m1 p size;
  Ok (bs, m1).

(** memory.h:72-77 MemCopy (memmove: reads everything before writing) *)
Definition mem_copy (strict : bool) (m : memory) (dest src size : Z) : res memory :=
  do! m1 <- mem_grow m src size;
  do! m2 <- mem_grow m1 dest size;
  do! pd <- mem_ptr strict m2 dest;
  do! ps <- mem_ptr strict m2 src;
  do! bs <- mem_read m2 ps size;
  mem_write m2 pd bs.

(** memory.cc:22-25 Memory(std::span): copies and pads to a multiple of 32 *)
Definition mem_of_span (bs : list Z) : res memory :=
  vec_resize bs (u64 (zlen bs + 31) / 32 * 32).
