(** What contracts may rely on in a world, whatever has happened in it so far: the vocabulary of C90.  The operations are those of
    the interface tosca.RunContext that change something. *)
From Verif Require Import Base Host GoAdapter.
From Coq Require Import ZArith List Bool.
Import ListNotations.
Open Scope Z_scope.

Inductive operation : Set :=
| SetsStorage (a k v : Z) | SetsTransient (a k v : Z) | AccessesAccount (a : Z) | AccessesStorage (a k : Z)
| SelfDestructs (a beneficiary : Z) | EmitsLog (a : Z) (topics data : list Z) | Calls (kind : go_kind) (p : call_params).

Section World.
Variable W : Type.
Variable c : run_context W.
Variable Call : W -> go_kind -> call_params -> option call_result * W.
Definition perform (w : W) (o : operation) : W :=
  match o with
  | SetsStorage a k v => snd (rc_set_storage c w a k v)
  | SetsTransient a k v => rc_set_transient c w a k v
  | AccessesAccount a => snd (rc_access_account c w a)
  | AccessesStorage a k => snd (rc_access_storage c w a k)
  | SelfDestructs a b => snd (rc_selfdestruct c w a b)
  | EmitsLog a topics data => rc_emit_log c w a topics data
  | Calls kind p => snd (Call w kind p)
  end.
(** a history: the first operation first *)
Definition after (w : W) (history : list operation) : W := fold_left perform history w.
End World.
Arguments perform {W}. Arguments after {W}.

(** the last value written to a slot, if any *)
Definition last_write (writes : operation -> option Z) (history : list operation) : option Z :=
  fold_left (fun r o => match writes o with Some v => Some v | None => r end) history None.
Definition storage_write (k : Z) (o : operation) : option Z := match o with SetsStorage _ k' v => if k' =? k then Some v else None | _ => None end.
Definition transient_write (k : Z) (o : operation) : option Z := match o with SetsTransient _ k' v => if k' =? k then Some v else None | _ => None end.
Definition or_else (o : option Z) (v : Z) : Z := match o with Some x => x | None => v end.
(** the values that operations store are words *)
Definition writes_words (o : operation) : Prop := match o with SetsStorage _ _ v | SetsTransient _ _ v => is_word v | _ => True end.
Definition is_call (o : operation) : bool := match o with Calls _ _ => true | _ => false end.

(** the classification of writes of EIP-1283, EIP-2200 and EVMC *)
Definition write_status (original current new : Z) : storage_status :=
  if new =? current then S_ASSIGNED
  else if current =? original then if original =? 0 then S_ADDED else if new =? 0 then S_DELETED else S_MODIFIED
  else if original =? 0 then if new =? 0 then S_ADDED_DELETED else S_ASSIGNED
  else if current =? 0 then if new =? original then S_DELETED_RESTORED else S_DELETED_ADDED
  else if new =? 0 then S_MODIFIED_DELETED else if new =? original then S_MODIFIED_RESTORED else S_ASSIGNED.
