(** What the generator of states is asked for, and what fulfils it. *)
From Verif Require Import Base Host GoStorage CtSolve SpecSolve CtGen SpecGen CtCodeGen SpecCode CtContext SpecContext CtAccounts SpecAccounts CtState.
From Coq Require Import ZArith List Bool Permutation.
Import ListNotations.
Open Scope Z_scope.

Inductive state_request :=
| Bind (x v : Z)                                   (* BindValue *)
| HasStatus (status : Z) | InMode (readOnly : bool)
| PcIs (p : Z) | PcVar (x : Z)                     (* SetPc, BindPc *)
| SelfIs (A : Z) | SelfVar (x : Z)                 (* SetSelfAddress, BindToSelfAddress *)
| GasIs (c : constraint) | RefundIs (c : constraint)
| CodeHas (q : code_request) | StackHas (q : stack_request) | StorageHas (q : storage_request) | TransientHas (q : transient_request)
| AccountsHave (q : account_request) | BlockHas (q : block_request) | BlobsHave (q : blob_request)
| IsDestructed (b : bool).

Definition state_call (g : StateGenerator) (q : state_request) : StateGenerator :=
  match q with
  | Bind x v => StateBindValue x v g | HasStatus s => SetStatus s g | InMode b => SetReadOnly b g
  | PcIs p => SetPc p g | PcVar x => BindPc x g | SelfIs A => SetSelfAddress A g | SelfVar x => BindToSelfAddress x g
  | GasIs c => on_gas (fun s => range_add s c) g | RefundIs c => on_refund (fun s => range_add s c) g
  | CodeHas q => on_code (fun s => code_request_call s q) g | StackHas q => on_stack (fun s => stack_request_call s q) g
  | StorageHas q => on_storage (fun s => storage_request_call s q) g | TransientHas q => on_transient (fun s => transient_request_call s q) g
  | AccountsHave q => on_accounts (fun s => account_call s q) g | BlockHas q => on_block (fun s => block_call s q) g
  | BlobsHave q => on_tx (fun s => blob_call s q) g
  | IsDestructed true => MustBeSelfDestructed g | IsDestructed false => MustNotBeSelfDestructed g
  end.
Definition state_generator (qs : list state_request) : StateGenerator := fold_left state_call qs NewStateGenerator.

(** the types of the arguments *)
Definition state_request_ok (q : state_request) : Prop :=
  match q with
  | Bind _ v => is_word v
  | PcIs p => 0 <= p < 2 ^ 16
  | SelfIs A => 0 <= A < 2 ^ 160
  | GasIs c | RefundIs c => typed tInt c /\ bounds c
  | CodeHas q => code_request_ok q | StackHas q => stack_request_ok q | AccountsHave q => account_request_ok q | BlockHas q => block_request_ok q
  | _ => True
  end.

(** A state and values for the variables fulfil a request. *)
Definition state_fulfils (b : Assignment) (s : State) (q : state_request) : Prop :=
  match q with
  | Bind x v => b x = Some v
  | HasStatus n => s_status s = n
  | InMode r => s_readOnly s = r
  | PcIs p => s_pc s = p
  | PcVar x => exists v, b x = Some v /\ s_pc s = v mod 2 ^ 16
  | SelfIs A => s_self s = A
  | SelfVar x => b x = Some (s_self s)
  | GasIs c => obeys (s_gas s) c
  | RefundIs c => obeys (s_refund s) c
  | CodeHas q => code_fulfils b (s_code s) q
  | StackHas q => stack_fulfils b (s_stack s) q
  | StorageHas q => storage_fulfils b (s_storage s) q
  | TransientHas q => transient_fulfils b (s_transient s) q
  | AccountsHave q => account_fulfils b (s_accounts s) q
  | BlockHas q => block_fulfils (s_block s) b q
  | BlobsHave q => blob_fulfils (s_blobs s) b q
  | IsDestructed d => s_destructed s = d
  end.
(** What holds for each state, whatever the requests. *)
Definition state_valid (s : State) : Prop :=
  0 <= s_status s < 4 /\ 0 <= s_pc s < 2 ^ 16 /\ 0 <= s_gas s <= 500000000000 /\ - 500000000000 <= s_refund s <= 500000000000 /\
  zlen (s_code s) <= 24576 /\ Forall is_byte (s_code s) /\ 0 <= s_self s < 2 ^ 160 /\ zlen (GetCode (s_accounts s) (s_self s)) = 42 /\
  zlen (s_stack s) <= 1024 /\ 0 <= s_blobs s < 2 ^ 64 /\ 0 <= s_block s < 2 ^ 64 /\
  s_revision s = revision_at (s_block s) /\ revision_at (s_time s) = s_revision s.

(** the requests of each kind *)
Fixpoint part {A} (f : state_request -> option A) (qs : list state_request) : list A :=
  match qs with [] => [] | q :: qs' => match f q with Some x => x :: part f qs' | None => part f qs' end end.
Definition codes : list state_request -> list code_request := part (fun q => match q with CodeHas q => Some q | _ => None end).
Definition stacks : list state_request -> list stack_request := part (fun q => match q with StackHas q => Some q | _ => None end).
Definition storages : list state_request -> list storage_request := part (fun q => match q with StorageHas q => Some q | _ => None end).
Definition transients : list state_request -> list transient_request := part (fun q => match q with TransientHas q => Some q | _ => None end).
Definition accounts : list state_request -> list account_request := part (fun q => match q with AccountsHave q => Some q | _ => None end).
Definition blocks : list state_request -> list block_request := part (fun q => match q with BlockHas q => Some q | _ => None end).
Definition blobs : list state_request -> list blob_request := part (fun q => match q with BlobsHave q => Some q | _ => None end).

(** The random numbers are in the ranges asked for, and the orders are orders of the iterations over the maps; the pooled stack is long
    enough. Random values are not zero (the transient storage generator takes them for nonzero). *)
Definition proper_draws (d : draws) (qs : list state_request) : Prop :=
  proper (d_gas d) /\ proper (d_refund d) /\ proper (d_stack d) /\ proper (d_block d) /\ proper (d_time d) /\
  (forall i, proper (d_tx d i)) /\ (forall i, proper (d_ranges d i)) /\
  (forall i, is_word (d_storage d i)) /\ (forall i, is_word (d_transient d i) /\ d_transient d i <> 0) /\ 0 <= d_size d < 2 ^ 31 /\
  sized (d_accounts d) /\ 1024 <= zlen (d_pool d) /\
  Permutation (d_transient_order d) (t_constraints (transient_generator (SpecState.transients qs))) /\
  Permutation (d_tx_order d) (tg_vars (tx_generator (blobs qs))) /\ Permutation (d_tx_order' d) (tg_vars (tx_generator (blobs qs))) /\
  Permutation (d_values d) (bg_value (block_generator (blocks qs))) /\ Permutation (d_values' d) (bg_value (block_generator (blocks qs))) /\
  Permutation (d_vars d) (bg_range (block_generator (blocks qs))) /\ Permutation (d_vars' d) (bg_range (block_generator (blocks qs))).
(** The random addresses of accounts are none of the values that variables can have before: addresses of code, the executing account
    (given or random), values given, keys of storages, and zero. *)
Definition fresh_addresses (d : draws) (a : Assignment) (qs : list state_request) : Prop :=
  forall i v, (0 <= v < 24576 \/ In (SelfIs v) qs \/ v = d_self d \/ (exists x, a x = Some v) \/ (exists x, In (Bind x v) qs) \/
    (exists j, v = d_storage d j) \/ (exists j, v = d_transient d j)) -> ch_address (d_accounts d) i mod 2 ^ 160 <> v mod 2 ^ 160.

(** The requests that may be missed (each is a finding about one of the generators): the value of a variable that the code generator
    binds again, or that is bound to the own address and longer than one; storage slots if the requests name a slot in more than one way;
    the accounts [overlooked]; the exceptions for blocks and blob hashes. *)
Definition missed (b : Assignment) (s : State) (qs : list state_request) (q : state_request) : Prop :=
  match q with
  | Bind x v => In (CodeHas (CodeVar x)) qs \/ In (CodeHas (DataVar x)) qs \/ In (SelfVar x) qs /\ 2 ^ 160 <= v
  | StorageHas _ => ~ (one_config (storages qs) /\ separate b (storages qs) /\ values_not_keys (fun _ => None) (storages qs))
  | AccountsHave q => overlooked b b (s_self s) (accounts qs) q
  | BlockHas _ => (exists x, In (OneOfLast256 x) (blocks qs) /\ In (Offset x 0) (blocks qs)) \/
      1 <= s_block s <= 255 /\ exists x, In (NoneOfLast256 x) (blocks qs)
  | BlobsHave _ => exists x y m, In (Present x) (blobs qs) /\ In (Absent y) (blobs qs) /\ b y = Some m /\ (b x = Some m \/ m = 0)
  | _ => False
  end.

(** Requests that no other generator than the one of states deals with. *)
Definition plain (q : state_request) : Prop :=
  match q with
  | CodeHas _ | StackHas _ | StorageHas _ | TransientHas _ | AccountsHave _ | BlockHas _ | BlobsHave _ => False
  | _ => True
  end.
