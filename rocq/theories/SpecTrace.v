(** Which instructions of the reference semantics the interpreter dispatches: all, except that a taken
    jump is executed together with the JUMPDEST it arrives at. *)
From Verif Require Import Base Host SpecEvm.

Section SpecTrace.
Context {W : Type}.
Variable H : host W.
Variable call : W -> message -> cresult * W.
Variable keccak : list Z -> Z.
Variables (msg : message) (rev : revision) (code : list Z) (valid_dest : Z -> bool).
Notation frame := (frame W).
Notation outcome := (outcome W).
Notation step := (step H call keccak msg rev code valid_dest).

(** the instruction at pc is a JUMP, or a JUMPI with a non-zero condition *)
Definition takes_jump (f : frame) : bool :=
  let b := code_at code (f_pc f) in
  (b =? 0x56) || ((b =? 0x57) && match f_stack f with _ :: c :: _ => negb (c =? 0) | _ => false end).

(** one dispatch: an instruction, and if it was a taken jump the JUMPDEST behind it *)
Definition dispatch (f : frame) : outcome :=
  match step f with
  | Next f1 => if takes_jump f then step f1 else Next f1
  | o => o
  end.

(** the first [n] dispatches: code byte and nested execution asked for *)
Fixpoint dispatched (n : nat) (f : frame) : list (Z * option (W * message)) :=
  match n with
  | O => []
  | S n => (code_at code (f_pc f), asks H msg rev code f) ::
           match dispatch f with Next f' => dispatched n f' | _ => [] end
  end.
End SpecTrace.
