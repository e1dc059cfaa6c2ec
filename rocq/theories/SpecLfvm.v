(** What is asked of clients of the Go interpreter, and how it has to report what the EVM does. *)
From Verif Require Import Base Host SpecEvm SpecVm GoAdapter.
From Coq Require Import ZArith List.
Import ListNotations.
Open Scope Z_scope.

(** the calls of a running program, answered by the Call method of the run context *)
Definition answers {W} (Call : W -> go_kind -> call_params -> option call_result * W) (w : W) (m : message) : cresult * W :=
  let '(r, w') := Call w (go_kind_of m) (call_params_of m) in (cresult_of r, w').

(** the run context: values are in the range of their types, calls keep the gas contract (they return at most the gas they got),
    reading an account's balance or code does not depend on whether the account was accessed, and a slot that is accessed for
    the first time has its original value *)
Record env_ok {W} (rc : run_context W) (tx : tx_context) (Call : W -> go_kind -> call_params -> option call_result * W) (keccak : list Z -> Z) (depth : Z) : Prop := mkEnvOk {
  env_host : host_ok (go_host rc tx);
  env_tx : tx_ok tx;
  env_keccak : forall d, is_word (keccak d);
  env_codes : forall w a, zlen (rc_code rc w a) < 2 ^ 63;
  env_calls : calls_ok (answers Call) depth;
  env_access : forall w a st w1, rc_access_account rc w a = (st, w1) -> forall b, is_empty rc w1 b = is_empty rc w b /\ rc_balance rc w1 b = rc_balance rc w b;
  env_cold : forall w a k v w1 st w2, rc_access_storage rc w a k = (COLD, w1) -> rc_set_storage rc w1 a k v = (st, w2) ->
    st <> S_DELETED_RESTORED /\ st <> S_MODIFIED_RESTORED;
}.
(** the parameters of a run: 65536 bytes exceed every size limit for code on chain (24576 bytes, 49152 for init code) *)
Record run_ok (p : parameters) : Prop := mkRunOk {
  par_msg : msg_ok (message_of p);
  par_gas : 0 <= p_gas p;
  par_depth : p_depth p <= 1024;
  par_code : Forall is_byte (p_code p);
  par_size : zlen (p_code p) <= 65536;
}.
Definition revisions : list (Z * revision) := [(0, Istanbul); (1, Berlin); (2, London); (3, Paris); (4, Shanghai); (5, Cancun)].

(** the result of Run for a result of the EVM: a failed run keeps nothing, a reverted one its output and gas *)
Definition expected (r : cresult) : go_result :=
  match cr_status r with
  | EVMC_SUCCESS => mkGo true (cr_output r) (cr_gas_left r) (cr_gas_refund r)
  | EVMC_REVERT => mkGo false (cr_output r) (cr_gas_left r) 0
  | _ => mkGo false [] 0 0
  end.
Definition unfailed (r : cresult) : Prop := cr_status r = EVMC_SUCCESS \/ cr_status r = EVMC_REVERT.

(** the byte sequence SWAP2 SWAP1 POP JUMP, with which compiled functions return to their callers, jumps to the third element
    of the stack: whenever the EVM gets to such a sequence, the element is an offset below 2^31 *)
Definition returns_in_range {W} (H : host W) (keccak : list Z -> Z) (call : W -> message -> cresult * W) (w : W) (rev : revision) (code : list Z) (m : message) : Prop :=
  forall n f, run_for H call keccak m rev code (is_dest code) n (initial m w) = Next f ->
  slice code (f_pc f) 4 = [0x91; 0x90; 0x50; 0x56] -> forall a b d s, f_stack f = a :: b :: d :: s -> d < 2 ^ 31.
