(** Vocabulary for the instructions that use the host. *)
From Verif Require Import Base Host SpecEvm SpecCall SpecVm Vm SpecStep Client GoStorage.

(** StepN reports a failure with status [sc], leaving the host in state [w'] *)
Definition fails_with {W} (g : setting W) (v : vm) (w : W) (rv : revision) (code : list Z) (m : message) (si : step_in)
    (sc : status_code) (w' : W) : Prop :=
  exists so, steps_to g v w rv code m si so w' /\ failed rv si sc so.

(** cost of looking at an account or at a storage slot; from Berlin on (EIP-2929) the host is told and remembers *)
Definition account_access {W} (H : host W) (rv : revision) (w : W) (a : Z) : Z * W :=
  if rev_ge rv Berlin then let '(st, w') := h_access_account H w a in (match st with COLD => 2600 | WARM => 100 end, w') else (700, w).
Definition slot_access {W} (H : host W) (rv : revision) (w : W) (a k : Z) : Z * W :=
  if rev_ge rv Berlin then let '(st, w') := h_access_storage H w a k in (match st with COLD => 2100 | WARM => 100 end, w') else (800, w).

(** bytes which an instruction does not define *)
Definition assigned (op : Z) : bool :=
  existsb (fun '(lo, hi) => (lo <=? op) && (op <=? hi))
    [(0x00, 0x0B); (0x10, 0x1D); (0x20, 0x20); (0x30, 0x4A); (0x50, 0xA4); (0xF0, 0xF5); (0xFA, 0xFA); (0xFD, 0xFD); (0xFF, 0xFF)].
(** instructions introduced after Istanbul *)
Definition introduced : list (Z * revision) :=
  [(0x48, London); (0x5F, Shanghai); (0x49, Cancun); (0x4A, Cancun); (0x5C, Cancun); (0x5D, Cancun); (0x5E, Cancun)].
(** instructions that modify the state: SSTORE, TSTORE, LOG0-4, CREATE, CREATE2, SELFDESTRUCT *)
Definition modifying : list Z := [0x55; 0x5D; 0xA0; 0xA1; 0xA2; 0xA3; 0xA4; 0xF0; 0xF5; 0xFF].

(** is the slot cold? (from Berlin on the host is told and remembers; before, all slots count as cold) *)
Definition slot_cold {W} (H : host W) (rv : revision) (w : W) (a k : Z) : bool * W :=
  if rev_ge rv Berlin then let '(st, w') := h_access_storage H w a k in (match st with COLD => true | WARM => false end, w') else (true, w).

(** ** SSTORE as the EIPs describe it: [o] original value, [c] current value, [n] new value *)
(** EIP-2200: SLOAD_GAS 800, SSTORE_SET_GAS 20000, SSTORE_RESET_GAS 5000, SSTORE_CLEARS_SCHEDULE 15000;
    EIP-2929 (Berlin): SLOAD_GAS 100, SSTORE_RESET_GAS 2900, 2100 for a cold slot; EIP-3529 (London): SSTORE_CLEARS_SCHEDULE 4800 *)
Definition sload_gas (rv : revision) : Z := if rev_ge rv Berlin then 100 else 800.
Definition sstore_set_gas : Z := 20000.
Definition sstore_reset_gas (rv : revision) : Z := if rev_ge rv Berlin then 2900 else 5000.
Definition clears_schedule (rv : revision) : Z := if rev_ge rv London then 4800 else 15000.
Definition eip_sstore_cost (rv : revision) (cold : bool) (o c n : Z) : Z :=
  (if rev_ge rv Berlin && cold then 2100 else 0) +
  (if c =? n then sload_gas rv
   else if o =? c then if o =? 0 then sstore_set_gas else sstore_reset_gas rv
   else sload_gas rv).
Definition eip_sstore_refund (rv : revision) (o c n : Z) : Z :=
  if c =? n then 0
  else if o =? c then if negb (o =? 0) && (n =? 0) then clears_schedule rv else 0
  else
    (if o =? 0 then 0 else (if c =? 0 then - clears_schedule rv else 0) + (if n =? 0 then clears_schedule rv else 0)) +
    (if o =? n then if o =? 0 then sstore_set_gas - sload_gas rv else sstore_reset_gas rv - sload_gas rv else 0).

(** ** Effects on the host *)
(** the host's state has changed at most by accounts and slots having been accessed *)
Inductive warms {W} (H : host W) (w : W) : W -> Prop :=
| warm_none : warms H w w
| warm_account : forall w1 a, warms H w w1 -> warms H w (snd (h_access_account H w1 a))
| warm_slot : forall w1 a k, warms H w w1 -> warms H w (snd (h_access_storage H w1 a k)).
Arguments warms {W}.

(** CREATE, CALL, CALLCODE, DELEGATECALL, CREATE2, STATICCALL *)
Definition asking : list Z := [0xF0; 0xF1; 0xF2; 0xF4; 0xF5; 0xFA].

(** a property of host states that looking at accounts and slots preserves *)
Record survives_access {W} (H : host W) (P : W -> Prop) : Prop := mkSurvives {
  sv_account : forall w a, P w -> P (snd (h_access_account H w a));
  sv_slot : forall w a k, P w -> P (snd (h_access_storage H w a k));
}.
(** a message that may be sent from static mode: it is static itself, creates nothing and transfers no value *)
Definition harmless (m : message) : Prop :=
  Z.odd (msg_flags m) = true /\ msg_kind m <> K_CREATE /\ msg_kind m <> K_CREATE2 /\ (msg_kind m = K_CALL -> msg_value m = 0).

(** how a host deals with a harmless call: it keeps [P] and has only static messages executed *)
Inductive preserves {W} (P : W -> Prop) : prog W -> Prop :=
| preserves_done : forall r w, P w -> preserves P (Done r w)
| preserves_enter : forall w rv code m k, P w -> Z.odd (msg_flags m) = true -> (forall r w', P w' -> preserves P (k r w')) -> preserves P (Enter w rv code m k).


(** ** Stepping through a run *)
(** A client runs [m] step by step: after [n] instructions in all, StepN shows [so], and the host is in state [w']. *)
Definition observed {W} (g : setting W) (v : vm) (w : W) (rv : revision) (code : list Z) (m : message) (n : nat) (so : step_out) (w' : W) : Prop :=
  exists ns v', total ns = n /\ drive (fun v w m si => StepN g v w rv code m si) ns v w m (start_out m rv) = Ok (so, w', v').

(** what can be said about gas, refund, memory and stack after any number of instructions *)
Record step_spent (m : message) (si : step_in) (so : step_out) : Prop := mkStepSpent {
  (** gas only decreases; an execution that goes on pays for every instruction *)
  sp_gas : 0 <= so_gas so <= msg_gas m;
  sp_running : so_step so = STEP_RUNNING -> so_gas so <= msg_gas m - si_steps si;
  sp_failed : so_step so = STEP_FAILED -> so_gas so = 0;
  (** the refund counter changes by at most 199 per unit of gas spent *)
  sp_refund : Z.abs (so_refund so - si_refunds si) <= 199 * (msg_gas m - so_gas so);
  (** memory consists of whole words, does not shrink, and its growth has been paid for *)
  sp_words : exists k, zlen (so_mem so) = 32 * k;
  sp_mem : zlen (si_mem si) <= zlen (so_mem so);
  sp_paid : so_gas so + Gmem (zlen (so_mem so)) <= msg_gas m + Gmem (zlen (si_mem si));
  sp_height : zlen (so_stack so) <= 1024;
}.
(** what the caller of a frame may rely on, whatever the code does *)
Record frame_contract (m : message) (r : cresult) : Prop := mkFrameContract {
  fc_gas : 0 <= cr_gas_left r <= Z.max 0 (msg_gas m);
  fc_failed : cr_status r <> EVMC_SUCCESS -> cr_status r <> EVMC_REVERT -> cr_gas_left r = 0 /\ cr_output r = [];
  fc_refund : Z.abs (cr_gas_refund r) <= 199 * (Z.max 0 (msg_gas m) - cr_gas_left r);
}.

(** ** Storage *)
(** [committed w a k] is the value of the slot at the start of the transaction *)
Record storage_host {W} (H : host W) (committed : W -> Z -> Z -> Z) : Prop := mkStorageHost {
  sh_status : forall w a k x, is_word x -> fst (h_set_storage H w a k x) = GetStorageStatus (committed w a k) (h_get_storage H w a k) x;
  sh_value : forall w a k x a' k', is_word x -> h_get_storage H (snd (h_set_storage H w a k x)) a' k' =
    if (a' =? a) && (k' =? k) then x else h_get_storage H w a' k';
  sh_committed : forall w a k x a' k', committed (snd (h_set_storage H w a k x)) a' k' = committed w a' k';
  sh_access : forall w a k a' k', h_get_storage H (snd (h_access_storage H w a k)) a' k' = h_get_storage H w a' k' /\
    committed (snd (h_access_storage H w a k)) a' k' = committed w a' k';
  sh_dirty_warm : forall w a k, committed w a k <> h_get_storage H w a k -> fst (h_access_storage H w a k) = WARM;
}.

(** the storage, current and committed, is the same *)
Definition same_storage {W} (g : setting W) (committed : W -> Z -> Z -> Z) (w w' : W) : Prop :=
  (forall a k, h_get_storage (g_host g) w' a k = h_get_storage (g_host g) w a k) /\ (forall a k, committed w' a k = committed w a k).
(** a history of SSTORE instructions, in whatever programs, with whatever happens to the host's state besides storage
    between them: starting from [w] they have granted refunds of [r] in all and led to [w'] *)
Inductive stores {W} (g : setting W) (committed : W -> Z -> Z -> Z) (rv : revision) (w : W) : Z -> W -> Prop :=
| stores_none : stores g committed rv w 0 w
| stores_one : forall r w1 v code m si so w2, stores g committed rv w r w1 -> at_op g v code m si 0x55 ->
    steps_to g v w1 rv code m si so w2 -> so_step so = STEP_RUNNING -> stores g committed rv w (r + (so_refund so - si_refunds si)) w2
| stores_other : forall r w1 w2, stores g committed rv w r w1 -> same_storage g committed w1 w2 -> stores g committed rv w r w2.

(** ** Calls *)
Definition call_byte (k : call_op) : Z := match k with OpCall => 0xF1 | OpCallCode => 0xF2 | OpDelegateCall => 0xF4 | OpStaticCall => 0xFA end.
Definition takes_value (k : call_op) : bool := match k with OpCall | OpCallCode => true | _ => false end.
(** the operands on the stack, the last one on top *)
Definition call_operands (k : call_op) (greq a value ioff isz ooff osz : Z) : list Z :=
  [osz; ooff; isz; ioff] ++ (if takes_value k then [value] else []) ++ [a; greq].

Definition creation_message (m : message) (two : bool) (gas : Z) (init : list Z) (value salt : Z) : message :=
  mkMsg (if two then K_CREATE2 else K_CREATE) 0 (msg_depth m + 1) gas 0 (msg_recipient m) init value salt 0 None.
(** is the beneficiary of SELFDESTRUCT cold? (only since Berlin) *)
Definition beneficiary_cold {W} (H : host W) (rv : revision) (w : W) (b : Z) : bool * W :=
  if rev_ge rv Berlin then let '(st, w') := h_access_account H w b in (match st with COLD => true | WARM => false end, w') else (false, w).
