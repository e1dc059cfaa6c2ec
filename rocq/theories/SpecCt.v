(** What the conformance testing targets should do with a state: make the steps of the EVM. *)
From Verif Require Import Base Host SpecEvm SpecVm GoAdapter SpecLfvm Ct.
From Coq Require Import ZArith List.
Import ListNotations.
Open Scope Z_scope.

(** the state of the EVM described by a state of the conformance tests; memory consists of whole words *)
Definition frame_of {W} (s : ct_state W) : frame W :=
  mkFrame (ct_pc s) (ct_gas s) (rev (ct_stack s)) (data_at (ct_mem s)) (32 * words (zlen (ct_mem s))) (ct_last s) (ct_refund s) (ct_world s).

(** the state that describes what became of [s]: running states have no result, ended ones no position, stack or memory of interest *)
Definition ct_after {W} (s : ct_state W) (o : outcome W) : ct_state W :=
  match o with
  | Next f => ct_update s CtRunning (f_pc f) (f_gas f) (f_refund f) (rev (f_stack f)) (read_bytes (f_mem f) 0 (f_active f)) (f_ret f) (ct_ret s) (f_world f)
  | Halt Stopped _ f => ct_update s CtStopped 0 (f_gas f) (f_refund f) [] [] [] (ct_ret s) (f_world f)
  | Halt Returned out f => ct_update s CtStopped 0 (f_gas f) (f_refund f) [] [] [] out (f_world f)
  | Halt Reverted out f => ct_update s CtReverted 0 (f_gas f) (f_refund f) [] [] [] out (f_world f)
  | Fail _ f => ct_update s CtFailed 0 0 0 [] [] [] [] (f_world f)
  end.

(** when two states are the same: failed states always are; ended ones if they agree in everything but position, stack, memory and
    return data of the last call; running ones if they agree in everything but the result, where all positions behind the code are one *)
Definition same_state {W} (a b : ct_state W) : Prop :=
  ct_stat a = ct_stat b /\
  (ct_stat a <> CtFailed ->
     ct_code a = ct_code b /\ ct_revision a = ct_revision b /\ ct_readonly a = ct_readonly b /\ ct_gas a = ct_gas b /\ ct_refund a = ct_refund b /\
     ct_self a = ct_self b /\ ct_caller a = ct_caller b /\ ct_value a = ct_value b /\ ct_calldata a = ct_calldata b /\ ct_world a = ct_world b /\
     match ct_stat a with
     | CtRunning => (ct_pc a = ct_pc b \/ zlen (ct_code a) <= ct_pc a /\ zlen (ct_code a) <= ct_pc b) /\
                    ct_stack a = ct_stack b /\ ct_mem a = ct_mem b /\ ct_last a = ct_last b
     | _ => ct_ret a = ct_ret b
     end).

(** running states: components are in the range of their types, the code leaves room for positions behind it, gas and memory are
    bounded as in the EVM (a memory whose price exceeds all gas cannot come about) *)
Record ct_ok {W} (s : ct_state W) : Prop := mkCtOk {
  ctk_running : ct_stat s = CtRunning;
  ctk_code : Forall is_byte (ct_code s);
  ctk_size : zlen (ct_code s) <= 65500;
  ctk_gas : 0 <= ct_gas s;
  ctk_mem_price : ct_gas s + Gmem (zlen (ct_mem s)) < 2 ^ 54;
  ctk_refund : Z.abs (ct_refund s) <= 199 * (2 ^ 54 - ct_gas s);
  ctk_words : Forall is_word (ct_stack s);
  ctk_height : zlen (ct_stack s) <= 1024;
  ctk_mem : Forall is_byte (ct_mem s);
  ctk_last : Forall is_byte (ct_last s);
  ctk_last_len : zlen (ct_last s) < 2 ^ 63;
  ctk_self : is_addr (ct_self s);
  ctk_caller : is_addr (ct_caller s);
  ctk_value : is_word (ct_value s);
  ctk_data : Forall is_byte (ct_calldata s);
  ctk_data_len : zlen (ct_calldata s) < 2 ^ 63;
}.
(** at an instruction of the code, or right behind the code *)
Definition at_instruction {W} (s : ct_state W) : Prop :=
  ct_pc s = zlen (ct_code s) \/ instr_start (ct_code s) (ct_pc s) /\ ct_pc s < zlen (ct_code s).

(** calling a target for one step, again and again *)
Fixpoint one_by_one {W} (step_n : ct_state W -> Z -> res (ct_state W * option go_error)) (n : nat) (s : ct_state W) : res (ct_state W * option go_error) :=
  match n with
  | O => Ok (s, None)
  | S n => do! '(s', e) <- step_n s 1;
           match e with None => one_by_one step_n n s' | Some e => Ok (s', Some e) end
  end.
