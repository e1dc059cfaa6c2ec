(** The VM as its clients see it.  A [setting] is everything the VM is given by its environment; [Execute] and
    [StepN] are the API functions with the host's re-entries included; [reach] are the VM objects a client can have. *)
From Verif Require Import Base Host SpecEvm SpecVm Vm SpecStep.
From Coq Require Import String.
Local Open Scope list_scope.

(** host functions, Keccak-256, the successive clock readings, the contents of recycled stack buffers, what the host
    does when called, and the code that each code hash stands for *)
Record setting (W : Type) : Type := mkSetting {
  g_host : host W;
  g_keccak : list Z -> Z;
  g_tick : nat -> Z;
  g_bufs : nat -> list (option Z);
  g_handler : W -> message -> prog W;
  g_code_of : Z -> list Z;
}.
Arguments mkSetting {W}. Arguments g_host {W}. Arguments g_keccak {W}. Arguments g_tick {W}. Arguments g_bufs {W}.
Arguments g_handler {W}. Arguments g_code_of {W}.

Record setting_ok {W} (g : setting W) : Prop := mkSettingOk {
  gok_host : host_ok (g_host g);
  gok_keccak : forall bs, is_word (g_keccak g bs);
  gok_bufs : forall n, zlen (g_bufs g n) = 1024;
  gok_handler : handler_ok (g_handler g) (g_code_of g);
}.

(** messages have depth at most 1024 (deeper calls are rejected by hosts), so this nesting always suffices *)
Definition levels : nat := Z.to_nat 1024.

Section Client.
Context {W : Type}.
Variable g : setting W.

(** evmzero.cc:124-185 with all nested executions *)
Definition Execute : vm -> W -> revision -> list Z -> message -> res (cresult * W * vm) :=
  exec (g_host g) (g_keccak g) (g_tick g) (g_bufs g) false (g_handler g) (S levels).
(** evmzero.cc:187-292 with all nested executions *)
Definition StepN : vm -> W -> revision -> list Z -> message -> step_in -> res (step_out * W * vm) :=
  step_n (g_host g) (g_keccak g) (g_bufs g) false
    (vm_call (g_host g) (g_keccak g) (g_tick g) (g_bufs g) false (g_handler g) levels).

(** what the EVM reference says about a message, and about a call made by a running program *)
Definition reference : W -> revision -> list Z -> message -> cresult * W :=
  eval (g_host g) (g_keccak g) (g_handler g) (S levels).
Definition nested (w : W) (m : message) : cresult * W := play (eval (g_host g) (g_keccak g) (g_handler g) levels) (g_handler g w m).

(** the VM objects that exist: created, then used through the API with admissible arguments *)
Inductive reach : vm -> Prop :=
| reach_new : forall t a, reach (vm_new t a)
| reach_execute : forall v w rv code m r w' v', reach v -> exec_ok (g_code_of g) code m ->
    Execute v w rv code m = Ok (r, w', v') -> reach v'
| reach_step : forall v w rv code m si so w' v', reach v -> exec_ok (g_code_of g) code m -> step_ok code m si ->
    StepN v w rv code m si = Ok (so, w', v') -> reach v'
| reach_option : forall v name value, reach v -> reach (snd (set_option name value v))
| reach_reset : forall v, reach v -> reach (reset_profiler v).

(** ** Single instructions, observed through StepN *)
(** StepN is about to execute one instruction, whose op code is [op] *)
Record at_op (v : vm) (code : list Z) (m : message) (si : step_in) (op : Z) : Prop := mkAtOp {
  at_vm : reach v;
  at_exec : exec_ok (g_code_of g) code m;
  at_args : step_ok code m si;
  at_running : si_status si = STEP_RUNNING;
  at_one : si_steps si = 1;
  at_code : code_at code (si_pc si) = op;
}.
End Client.

(** memory as StepN shows it: whole words *)
Definition whole_words (mem : list Z) : list Z := mem ++ zeros (32 * words (zlen mem) - zlen mem).

(** results of StepN: still running, ended, failed (with everything but gas and return data unchanged) *)
Definition running (rv : revision) (pc gas refund : Z) (stack mem ret : list Z) : step_out :=
  mkOut STEP_RUNNING EVMC_FAILURE rv pc gas refund ret stack mem ret.
Definition ended (st : step_status) (sc : status_code) (rv : revision) (pc gas refund : Z) (stack mem out : list Z) : step_out :=
  mkOut st sc rv pc gas refund out stack mem out.
Record failed (rv : revision) (si : step_in) (sc : status_code) (so : step_out) : Prop := mkFailed {
  fld_step : so_step so = STEP_FAILED;
  fld_status : so_status so = sc;
  fld_rev : so_rev so = rv;
  fld_gas : so_gas so = 0;
  fld_refund : so_refund so = si_refunds si;
  fld_output : so_output so = [];
  fld_last : so_last so = [];
  fld_stack : so_stack so = si_stack si;
  fld_mem : so_mem so = whole_words (si_mem si);
}.

(** StepN returns [so] and leaves the host in state [w'] (and the VM usable) *)
Definition steps_to {W} (g : setting W) (v : vm) (w : W) (rv : revision) (code : list Z) (m : message) (si : step_in) (so : step_out) (w' : W) : Prop :=
  exists v', StepN g v w rv code m si = Ok (so, w', v') /\ reach g v'.

(** [mem'] has [size] bytes and is [mem] except for the [n] bytes from [dst] on, which are [byte 0], [byte 1], ... *)
Definition overwritten (mem mem' : list Z) (size dst n : Z) (byte : Z -> Z) : Prop :=
  zlen mem' = size /\
  forall i, 0 <= i -> data_at mem' i = if (dst <=? i) && (i <? dst + n) then byte (i - dst) else data_at mem i.

(** size of memory after an access to the [n] bytes at [off] *)
Definition grown (mem : list Z) (off n : Z) : Z := expand (32 * words (zlen mem)) off n.
(** its price *)
Definition growth_cost (mem : list Z) (off n : Z) : Z := Gmem (grown mem off n) - Gmem (zlen mem).

(** StepN reports that the instruction cannot be paid for, and nothing has happened *)
Definition out_of_gas {W} (g : setting W) (v : vm) (w : W) (rv : revision) (code : list Z) (m : message) (si : step_in) : Prop :=
  exists so, steps_to g v w rv code m si so w /\ failed rv si EVMC_OUT_OF_GAS so.
