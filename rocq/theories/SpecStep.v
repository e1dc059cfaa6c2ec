(** What StepN should do: run the reference for the given number of instructions from the state
    described by its arguments and describe the state reached. *)
From Verif Require Import Base Host SpecEvm SpecVm Vm.

Section SpecStep.
Context {W : Type}.
Notation frame := (frame W).
Notation outcome := (outcome W).

(** the arguments of StepN describe the state [f]; the last element of the stack is its top *)
Record represents (m : message) (w : W) (si : step_in) (f : frame) : Prop := mkRepresents {
  rpr_pc : f_pc f = si_pc si;
  rpr_gas : f_gas f = msg_gas m;
  rpr_stack : f_stack f = rev (si_stack si);
  rpr_active : f_active f = 32 * words (zlen (si_mem si));
  rpr_mem : forall i, 0 <= i -> f_mem f i = data_at (si_mem si) i;
  rpr_ret : f_ret f = si_ret si;
  rpr_refund : f_refund f = si_refunds si;
  rpr_world : f_world f = w;
}.
Definition frame_in (m : message) (w : W) (si : step_in) : frame :=
  mkFrame (si_pc si) (msg_gas m) (rev (si_stack si)) (data_at (si_mem si)) (32 * words (zlen (si_mem si)))
    (si_ret si) (si_refunds si) w.

(** arguments with which StepN may be called *)
Record step_ok (code : list Z) (m : message) (si : step_in) : Prop := mkStepOk {
  sk_pc : 0 <= si_pc si <= zlen code + 32;
  sk_words : Forall is_word (si_stack si);
  sk_height : zlen (si_stack si) <= 1024;
  sk_mem : Forall is_byte (si_mem si);
  sk_size : Z.max 0 (msg_gas m) + Gmem (zlen (si_mem si)) < 2 ^ 54;
  sk_ret : Forall is_byte (si_ret si);
  sk_ret_len : zlen (si_ret si) < 2 ^ 63;
  sk_refund : Z.abs (si_refunds si) + 199 * Z.max 0 (msg_gas m) < 2 ^ 62;
}.

Definition step_halt (h : halt) : step_status :=
  match h with Stopped => STEP_STOPPED | Returned => STEP_RETURNED | Reverted => STEP_REVERTED end.

(** the description of the state [f], with return data [data] *)
Definition shown (st : step_status) (sc : status_code) (rv : revision) (f : frame) (data : list Z) : step_out :=
  mkOut st sc rv (f_pc f) (f_gas f) (f_refund f) data (rev (f_stack f)) (read_bytes (f_mem f) 0 (f_active f)) data.

Variable H : host W.
Variable call : W -> message -> cresult * W.
Variable keccak : list Z -> Z.
Variables (m : message) (rv : revision) (code : list Z).
Notation run_for := (run_for H call keccak m rv code (is_dest code)).
Notation step := (step H call keccak m rv code (is_dest code)).

(** [so] and [w'] are the result of at most [n] instructions from [f] on.
    After a failure in the frame [f1] the gas is used up, there is no return data and memory is that of
    [f1]; the stack has its original height, and is the original stack if the first instruction failed. *)
Definition step_shows (n : nat) (si : step_in) (f : frame) (so : step_out) (w' : W) : Prop :=
  match run_for n f with
  | Next f' => so = shown STEP_RUNNING EVMC_FAILURE rv f' (f_ret f') /\ w' = f_world f'
  | Halt h data f' => so = shown (step_halt h) (halt_status h) rv f' data /\ w' = f_world f'
  | Fail e f' => exists k f1, (k < n)%nat /\ run_for k f = Next f1 /\ step f1 = Fail e f' /\
      so_step so = STEP_FAILED /\ so_status so = failure_status e /\ so_rev so = rv /\ so_gas so = 0 /\
      so_refund so = f_refund f1 /\ so_output so = [] /\ so_last so = [] /\
      so_mem so = read_bytes (f_mem f1) 0 (f_active f1) /\ w' = f_world f' /\
      zlen (so_stack so) = zlen (si_stack si) /\ (k = 0%nat -> so_stack so = si_stack si)
  end.

(** continuing where the last StepN call stopped: message and arguments of the next call *)
Definition with_msg_gas (g : Z) (m : message) : message :=
  mkMsg (msg_kind m) (msg_flags m) (msg_depth m) g (msg_recipient m) (msg_sender m) (msg_input m) (msg_value m)
    (msg_salt m) (msg_code_address m) (msg_code_hash m).
Definition continue_in (so : step_out) (n : Z) : step_in :=
  mkIn (so_step so) (so_pc so) (so_refund so) (so_stack so) (so_mem so) (so_last so) n.

(** the description of the state in which Execute starts *)
Definition start_out (m : message) (rv : revision) : step_out :=
  mkOut STEP_RUNNING EVMC_FAILURE rv 0 (msg_gas m) 0 [] [] [] [].
(** a client that steps through a run: StepN calls with the given step counts, while the run goes on *)
Fixpoint drive (stepper : vm -> W -> message -> step_in -> res (step_out * W * vm)) (ns : list Z) (v : vm) (w : W)
    (m : message) (so : step_out) : res (step_out * W * vm) :=
  match ns with
  | [] => Ok (so, w, v)
  | n :: ns =>
    match so_step so with
    | STEP_RUNNING =>
      do! '(so', w', v') <- stepper v w (with_msg_gas (so_gas so) m) (continue_in so n);
      drive stepper ns v' w' m so'
    | _ => Ok (so, w, v)
    end
  end.
Fixpoint total (ns : list Z) : nat := match ns with [] => O | n :: ns => (Z.to_nat n + total ns)%nat end.
End SpecStep.
