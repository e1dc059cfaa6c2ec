(** Specification of the generator of codes: the requests, and when a code fulfils them. *)
From Verif Require Import Base SpecEvm SpecRules CtGen CtCodeGen.

Inductive code_request :=
| OpAt (pos op : Z)              (* SetOperation *)
| OpVar (variable op : Z)        (* AddOperation *)
| CodeVar (variable : Z)         (* AddIsCode *)
| DataVar (variable : Z).        (* AddIsData *)

Definition code_request_call (g : CodeGenerator) (q : code_request) : CodeGenerator :=
  match q with OpAt p o => SetOperation p o g | OpVar x o => AddOperation x o g | CodeVar x => AddIsCode x g | DataVar x => AddIsData x g end.
Definition code_generator (qs : list code_request) : CodeGenerator := fold_left code_request_call qs NewCodeGenerator.

(** Opcodes are bytes. *)
Definition code_request_ok (q : code_request) : Prop :=
  match q with OpAt _ o | OpVar _ o => 0 <= o < 256 | CodeVar _ | DataVar _ => True end.

(** An instruction of the code (not data of a PUSH) stands at [p], with opcode [o]. *)
Definition operation_at (code : list Z) (p o : Z) : Prop := instr_start code p /\ znth code p = Some o.

(** A code fulfils a request under an assignment. *)
Definition code_fulfils (a : Assignment) (code : list Z) (q : code_request) : Prop :=
  match q with
  | OpAt p o => operation_at code p o
  | OpVar x o => exists p, a x = Some p /\ operation_at code p o
  | CodeVar x => exists p o, a x = Some p /\ operation_at code p o
  | DataVar x => exists p, a x = Some p /\ p < zlen code /\ push_data code p
  end.

(** The requests concern operations at known positions only. *)
Definition known_position (a : Assignment) (q : code_request) : option Z :=
  match q with OpAt p _ => Some p | OpVar x _ => a x | CodeVar _ | DataVar _ => None end.
Definition positions (a : Assignment) (qs : list code_request) (ps : list Z) : Prop := map (known_position a) qs = map Some ps.
