(** What the conformance test driver is run with, and when states count as the same for it. *)
From Verif Require Import Base Host SpecEvm SpecVm Client GoAdapter SpecLfvm Ct SpecCt CtRules CtDriver.
From Coq Require Import ZArith List.
Import ListNotations.
Open Scope Z_scope.

(** The targets rely on calls that keep the gas contract (they cost something, and refunds are bounded by costs).  The calls of tests are
    answered by the journal of the state; where its answers break the contract, nothing is said about answers. *)
Definition from_journal (call : ctw -> message -> cresult * ctw) : Prop :=
  forall w m, call_ok m (fst (answers ct_Call w m)) -> call w m = answers ct_Call w m.
(** the journal's answer to the call that the instruction of a state makes, if it makes one, keeps the contract *)
Definition answered (tx : tx_context) (hash : list Z -> Z) (s : state) (rv : revision) : Prop :=
  forall w m, asks (go_host (ct_rc tx) tx) (message_of (ToVmParameters hash s)) rv (ct_code s) (frame_of s) = Some (w, m) -> call_ok m (fst (answers ct_Call w m)).

(** worlds are the same: what is stored at every key (keys that are not there hold zero), the entries for original values and accounts
    at every key, sets, logs, calls, destructed accounts and the recent block hashes *)
Record same_world (a b : ctw) : Prop := mkSameWorld {
  sw_current : forall k, GetCurrent a k = GetCurrent b k;
  sw_original : forall k, option_map word (entry_of (w_original a) k) = option_map word (entry_of (w_original b) k);
  sw_warm : forall k, In k (w_warm a) <-> In k (w_warm b);
  sw_transient : forall k, TGet a k = TGet b k;
  sw_accounts : forall k, option_map (fun x => (word (fst x), byte_slice (snd x))) (entry_of (w_accounts a) k) = option_map (fun x => (word (fst x), byte_slice (snd x))) (entry_of (w_accounts b) k);
  sw_warm_accounts : forall k, In k (w_warm_accounts a) <-> In k (w_warm_accounts b);
  sw_logs : w_logs a = w_logs b;
  sw_past : w_past a = w_past b;
  sw_future : w_future a = w_future b;
  sw_destructed : w_destructed a = w_destructed b;
  sw_journal : w_journal a = w_journal b;
  sw_hashes : forall i, 0 <= i < 256 -> hash_at a i = hash_at b i;
}.
(** states: as [same_state] with worlds that are the same *)
Definition alike_states (a b : state) : Prop :=
  ct_stat a = ct_stat b /\
  (ct_stat a <> CtFailed ->
     ct_code a = ct_code b /\ ct_revision a = ct_revision b /\ ct_readonly a = ct_readonly b /\ ct_gas a = ct_gas b /\ ct_refund a = ct_refund b /\
     ct_self a = ct_self b /\ ct_caller a = ct_caller b /\ ct_value a = ct_value b /\ ct_calldata a = ct_calldata b /\ same_world (ct_world a) (ct_world b) /\
     match ct_stat a with
     | CtRunning => (ct_pc a = ct_pc b \/ zlen (ct_code a) <= ct_pc a /\ zlen (ct_code a) <= ct_pc b) /\
                    ct_stack a = ct_stack b /\ ct_mem a = ct_mem b /\ ct_last a = ct_last b
     | _ => ct_ret a = ct_ret b
     end).
