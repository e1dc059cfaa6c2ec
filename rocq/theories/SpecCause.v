(** Why an instruction fails: what must be true of the instruction, the message and the stack (its last element is the top)
    for each status that StepN and Execute can report. *)
From Verif Require Import Base Host SpecEvm SpecHost SpecFees.

Definition cause (m : message) (rv : revision) (code : list Z) (op : Z) (stack : list Z) (sc : status_code) : Prop :=
  match sc with
  | EVMC_OUT_OF_GAS => True
  | EVMC_UNDEFINED_INSTRUCTION => exists since, In (op, since) introduced /\ rev_ge rv since = false
  | EVMC_INVALID_INSTRUCTION => assigned op = false
  | EVMC_STATIC_MODE_VIOLATION => Z.odd (msg_flags m) = true /\
      (In op modifying \/ op = 0xF1 /\ exists rest value addr gas, stack = rest ++ [value; addr; gas] /\ value <> 0)
  | EVMC_STACK_UNDERFLOW => zlen stack < pops op
  | EVMC_STACK_OVERFLOW => 1024 < zlen stack - pops op + pushes op
  | EVMC_BAD_JUMP_DESTINATION => exists rest d, stack = rest ++ [d] /\ ~ jumpdest code d /\
      (op = 0x56 \/ op = 0x57 /\ exists rest' c, rest = rest' ++ [c] /\ c <> 0)
  | EVMC_INVALID_MEMORY_ACCESS => op = 0x3E
  | EVMC_FAILURE => rev_ge rv Shanghai = true /\ (op = 0xF0 \/ op = 0xF5) /\
      exists rest size off value, stack = rest ++ [size; off; value] /\ 49152 < size
  | EVMC_SUCCESS | EVMC_REVERT | EVMC_CALL_DEPTH_EXCEEDED => False
  end.
