(** The reference for complete executions, without any bound on nesting: an EVM is a function that runs each message by
    the reference semantics, where nested calls are dealt with by the host, which has the messages it enters run by the
    same EVM. *)
From Verif Require Import Base Host SpecEvm SpecVm Client.

(** the host's answer to a call, when [ref] executes the messages that it enters *)
Definition host_call {W} (g : setting W) (ref : executor W) (w : W) (m : message) : cresult * W := play ref (g_handler g w m).

Definition evm {W} (g : setting W) (ref : executor W) : Prop := forall w rv code m dest,
  exec_ok (g_code_of g) code m -> (forall d, dest d = true <-> jumpdest code d) ->
  exists o, runs (g_host g) (host_call g ref) (g_keccak g) m rv code dest (initial m w) o /\ ref w rv code m = result_of o.

(** the same environment, but with other contents of recycled stack buffers and other clock readings *)
Definition with_bufs {W} (bufs : nat -> list (option Z)) (tick : nat -> Z) (g : setting W) : setting W :=
  mkSetting (g_host g) (g_keccak g) tick bufs (g_handler g) (g_code_of g).
