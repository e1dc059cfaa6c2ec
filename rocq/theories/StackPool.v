(** Models the life cycle of evmzero stacks, vm/evmzero/stack.h and stack.cc: Stack::Data::Get and
    Release (the global free list), construction, copying, assignment, Push, Pop and destruction.
    Data instances are never deleted, so a Data* is an index into the list of all instances ever
    allocated.  Get and Release run under free_list_mutex and are atomic steps; the other operations
    touch only buffers of the stacks they are applied to.  Stack objects are identified by numbers.
    An interleaving of threads is a sequence of operations. *)
From Verif Require Import Base.

(** stack.h:68-92 Data: next_ and data_ (1024 words, None = not initialised; index 1024 = end()) *)
Record data : Type := mkData { d_next : option nat; d_buf : list (option Z) }.
Definition stack_size : Z := 1024.      (* stack.h:29 *)
(** all Data instances, Data::free_list, and the live Stack objects with their data_ and top_ *)
Record pool : Type := mkPool { p_heap : list data; p_free : option nat; p_live : list (nat * (nat * Z)) }.

(** before any stack is constructed: stack.cc:65 free_list = nullptr *)
Definition pool_new : pool := mkPool [] None [].

Fixpoint lookup {A} (id : nat) (l : list (nat * A)) : option A :=
  match l with [] => None | (i, x) :: l' => if Nat.eqb id i then Some x else lookup id l' end.
Definition remove_id {A} (id : nat) (l : list (nat * A)) : list (nat * A) :=
  filter (fun p => negb (Nat.eqb id (fst p))) l.
Definition update_id {A} (id : nat) (x : A) (l : list (nat * A)) : list (nat * A) :=
  map (fun p => if Nat.eqb id (fst p) then (fst p, x) else p) l.

Definition deref (p : pool) (i : nat) : res data :=
  match nth_error (p_heap p) i with Some d => Ok d | None => Undef UB_ptr_range end.

(** stack.cc:68-76 Get *)
Definition data_get (p : pool) : res (nat * pool) :=
  match p_free p with
  | None => Ok (length (p_heap p),
                mkPool (p_heap p ++ [mkData None (repeat None (Z.to_nat stack_size))]) None (p_live p))
  | Some i => do! d <- deref p i; Ok (i, mkPool (p_heap p) (d_next d) (p_live p))
  end.
(** stack.cc:78-82 Release *)
Definition data_release (i : nat) (p : pool) : res pool :=
  do! d <- deref p i;
  Ok (mkPool (list_upd (p_heap p) i (mkData (p_free p) (d_buf d))) (Some i) (p_live p)).

(** what a program does with its stacks *)
Inductive stack_op : Type :=
| New (id : nat)                     (* Stack() *)
| Copy (id other : nat)              (* Stack(const Stack&) *)
| Assign (id other : nat)            (* operator= *)
| Init (id : nat) (els : list Z)      (* Stack(std::initializer_list<uint256_t>) *)
| Push (id : nat) (v : Z)
| Pop (id : nat)
| At (id : nat) (k : Z)              (* operator[] *)
| Put (id : nat) (k v : Z)           (* operator[] = v *)
| Size (id : nat)                    (* GetSize *)
| Equal (id other : nat)             (* operator==, the result as 0 or 1 *)
| Destroy (id : nat).                (* ~Stack() *)

Definition stack_of (p : pool) (id : nat) : res (nat * Z) :=
  match lookup id (p_live p) with Some x => Ok x | None => Undef UB_ptr_range end.
(** stack.cc:18 Stack(): data_(Data::Get()), top_(data_->end()) *)
Definition stack_new (id : nat) (p : pool) : res pool :=
  do! '(i, p) <- data_get p;
  Ok (mkPool (p_heap p) (p_free p) ((id, (i, stack_size)) :: p_live p)).
(** stack.cc:28-29, 42-43: *data_ = *other.data_ (which also copies next_);
    top_ = data_->end() - other.GetSize() *)
Definition stack_assign (id other : nat) (p : pool) : res pool :=
  do! '(i, _) <- stack_of p id;
  do! '(j, t) <- stack_of p other;
  do! d <- deref p j;
  Ok (mkPool (list_upd (p_heap p) i d) (p_free p) (update_id id (i, stack_size - (stack_size - t)) (p_live p))).

(** stack.h:43-46 Push *)
Definition stack_push (id : nat) (v : Z) (p : pool) : res pool :=
  do! '(i, t) <- stack_of p id;
  do! d <- deref p i;
  if (0 <=? t - 1) && (t - 1 <? zlen (d_buf d))
  then Ok (mkPool (list_upd (p_heap p) i (mkData (d_next d) (list_upd (d_buf d) (Z.to_nat (t - 1)) (Some v))))
             (p_free p) (update_id id (i, t - 1) (p_live p)))
  else Undef UB_stack_oob.
(** stack.cc:20-25: push the elements in turn *)
Fixpoint stack_pushes (id : nat) (els : list Z) (p : pool) : res pool :=
  match els with [] => Ok p | v :: els' => do! p <- stack_push id v p; stack_pushes id els' p end.
(** reading an element of the buffer *)
Definition slot_read (d : data) (x : Z) : res Z :=
  match znth (d_buf d) x with Some (Some v) => Ok v | Some None => Undef UB_stack_uninit | None => Undef UB_stack_oob end.
(** stack.cc:47 std::equal on ranges of [n] elements *)
Fixpoint range_equal (n : nat) (a b : data) (x y : Z) : res bool :=
  match n with
  | O => Ok true
  | S n' =>
    do! v <- slot_read a x;
    do! w <- slot_read b y;
    if v =? w then range_equal n' a b (x + 1) (y + 1) else Ok false
  end.

Definition pool_step (o : stack_op) (p : pool) : res (option Z * pool) :=
  match o with
  | New id => do! p <- stack_new id p; Ok (None, p)
  | Copy id other => do! p <- stack_new id p; do! p <- stack_assign id other p; Ok (None, p)
  | Assign id other =>
    if Nat.eqb id other then Ok (None, p)                        (* stack.cc:39-41 *)
    else do! p <- stack_assign id other p; Ok (None, p)
  | Init id els => do! p <- stack_new id p; do! p <- stack_pushes id els p; Ok (None, p)
  | Push id v => do! p <- stack_push id v p; Ok (None, p)
  | Pop id =>                                                    (* stack.h:48-51 *)
    do! '(i, t) <- stack_of p id;
    do! d <- deref p i;
    do! v <- slot_read d t;
    Ok (Some v, mkPool (p_heap p) (p_free p) (update_id id (i, t + 1) (p_live p)))
  | At id k =>                                                   (* stack.h:57-61 top_[index] *)
    do! '(i, t) <- stack_of p id;
    do! d <- deref p i;
    do! v <- slot_read d (t + k);
    Ok (Some v, p)
  | Put id k v =>                                                (* stack.h:57-60 *)
    do! '(i, t) <- stack_of p id;
    do! d <- deref p i;
    if (0 <=? t + k) && (t + k <? zlen (d_buf d))
    then Ok (None, mkPool (list_upd (p_heap p) i (mkData (d_next d) (list_upd (d_buf d) (Z.to_nat (t + k)) (Some v)))) (p_free p) (p_live p))
    else Undef UB_stack_oob
  | Size id => do! '(i, t) <- stack_of p id; Ok (Some (stack_size - t), p)   (* stack.h:40 end_ - top_ *)
  | Equal id other =>                                            (* stack.cc:47: std::equal compares the lengths first *)
    do! '(i, t) <- stack_of p id;
    do! '(j, u) <- stack_of p other;
    do! a <- deref p i;
    do! b <- deref p j;
    if stack_size - t =? stack_size - u
    then do! e <- range_equal (Z.to_nat (stack_size - t)) a b t u; Ok (Some (if e : bool then 1 else 0), p)
    else Ok (Some 0, p)
  | Destroy id =>                                                (* stack.cc:32-36 *)
    do! '(i, _) <- stack_of p id;
    do! p <- data_release i p;
    Ok (None, mkPool (p_heap p) (p_free p) (remove_id id (p_live p)))
  end.

Fixpoint pool_run (os : list stack_op) (p : pool) : res (list (option Z) * pool) :=
  match os with
  | [] => Ok ([], p)
  | o :: os' =>
    do! '(r, p) <- pool_step o p;
    do! '(rs, p) <- pool_run os' p;
    Ok (r :: rs, p)
  end.

(** ** Specification: stacks are independent values.  [None]: the program misuses its stacks (uses
    a dead one, constructs a live one again, pushes beyond 1024 elements, pops an empty one, accesses an element beyond the size).
    The top of a stack is the first element of its list. *)
Definition values := list (nat * list Z).
Definition spec_step (o : stack_op) (s : values) : option (option Z * values) :=
  match o with
  | New id => match lookup id s with None => Some (None, (id, []) :: s) | Some _ => None end
  | Copy id other =>
    match lookup id s, lookup other s with None, Some l => Some (None, (id, l) :: s) | _, _ => None end
  | Assign id other =>
    match lookup id s, lookup other s with Some _, Some l => Some (None, update_id id l s) | _, _ => None end
  | Push id v =>
    match lookup id s with
    | Some l => if zlen l <? 1024 then Some (None, update_id id (v :: l) s) else None
    | None => None
    end
  | Init id els => match lookup id s with None => if zlen els <=? 1024 then Some (None, (id, rev els) :: s) else None | Some _ => None end
  | Pop id => match lookup id s with Some (v :: l) => Some (Some v, update_id id l s) | _ => None end
  | At id k => match lookup id s with Some l => match znth l k with Some v => Some (Some v, s) | None => None end | None => None end
  | Put id k v =>
    match lookup id s with
    | Some l => if (0 <=? k) && (k <? zlen l) then Some (None, update_id id (list_upd l (Z.to_nat k) v) s) else None
    | None => None
    end
  | Size id => match lookup id s with Some l => Some (Some (zlen l), s) | None => None end
  | Equal id other =>
    match lookup id s, lookup other s with
    | Some l, Some l' => Some (Some (if list_eq_dec Z.eq_dec l l' then 1 else 0), s)
    | _, _ => None
    end
  | Destroy id => match lookup id s with Some _ => Some (None, remove_id id s) | None => None end
  end.
(** results, final values and the largest number of simultaneously live stacks *)
Fixpoint spec_run (os : list stack_op) (s : values) : option (list (option Z) * values * nat) :=
  match os with
  | [] => Some ([], s, length s)
  | o :: os' =>
    match spec_step o s with
    | Some (r, s') =>
      match spec_run os' s' with
      | Some (rs, s'', peak) => Some (r :: rs, s'', Nat.max (length s) peak)
      | None => None
      end
    | None => None
    end
  end.
