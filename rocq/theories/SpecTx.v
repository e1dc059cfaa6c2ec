(** What the transaction processor may assume of its environment, and the words in which its properties are stated. *)
From Verif Require Import Base Host SpecEvm SpecVm Vm Client GoAdapter Floria.
From Coq Require Import String.
Local Open Scope list_scope.

(** a transaction context: values have the width of their types, and what is set is what is read afterwards *)
Record context_ok {W} (c : context W) : Prop := mkContextOk {
  xo_balance : forall w a, is_word (rc_balance (x_rc c) w a);
  xo_nonce : forall w a, 0 <= rc_nonce (x_rc c) w a < 2 ^ 64;
  xo_code : forall w a, Forall is_byte (rc_code (x_rc c) w a) /\ zlen (rc_code (x_rc c) w a) <= 2 ^ 32;
  xo_code_size : forall w a, rc_code_size (x_rc c) w a = zlen (rc_code (x_rc c) w a);
  xo_code_hash : forall w a, is_word (rc_code_hash (x_rc c) w a);
  xo_storage : forall w a k, is_word (rc_storage (x_rc c) w a k);
  xo_transient : forall w a k, is_word (rc_transient (x_rc c) w a k);
  xo_block_hash : forall w n, is_word (rc_block_hash (x_rc c) w n);
  xo_set_balance : forall w a v b, is_word v -> rc_balance (x_rc c) (x_set_balance c w a v) b = if b =? a then v else rc_balance (x_rc c) w b;
  xo_set_balance_nonce : forall w a v b, rc_nonce (x_rc c) (x_set_balance c w a v) b = rc_nonce (x_rc c) w b;
  xo_set_balance_code : forall w a v b, rc_code (x_rc c) (x_set_balance c w a v) b = rc_code (x_rc c) w b;
  xo_set_nonce : forall w a n b, 0 <= n < 2 ^ 64 -> rc_nonce (x_rc c) (x_set_nonce c w a n) b = if b =? a then n else rc_nonce (x_rc c) w b;
  xo_set_nonce_balance : forall w a n b, rc_balance (x_rc c) (x_set_nonce c w a n) b = rc_balance (x_rc c) w b;
  xo_set_nonce_code : forall w a n b, rc_code (x_rc c) (x_set_nonce c w a n) b = rc_code (x_rc c) w b;
  xo_set_code : forall w a code, Forall is_byte code -> zlen code <= 2 ^ 32 -> rc_code (x_rc c) (x_set_code c w a code) a = code;
  xo_set_code_others : forall w a code b, b <> a -> rc_code (x_rc c) (x_set_code c w a code) b = rc_code (x_rc c) w b;
  xo_set_code_balance : forall w a code b, rc_balance (x_rc c) (x_set_code c w a code) b = rc_balance (x_rc c) w b;
  xo_set_code_nonce : forall w a code b, rc_nonce (x_rc c) (x_set_code c w a code) b = rc_nonce (x_rc c) w b;
  xo_touch_account : forall w a b, rc_balance (x_rc c) (snd (rc_access_account (x_rc c) w a)) b = rc_balance (x_rc c) w b /\
    rc_nonce (x_rc c) (snd (rc_access_account (x_rc c) w a)) b = rc_nonce (x_rc c) w b;
  xo_touch_slot : forall w a k b, rc_balance (x_rc c) (snd (rc_access_storage (x_rc c) w a k)) b = rc_balance (x_rc c) w b /\
    rc_nonce (x_rc c) (snd (rc_access_storage (x_rc c) w a k)) b = rc_nonce (x_rc c) w b;
}.
(** what running code does to the accounts, other than through calls: nothing, except that SELFDESTRUCT moves the balance (and
    the world state may drop the account that is destroyed) *)
Definition same_account {W} (c : context W) (w w' : W) (a : Z) : Prop :=
  rc_balance (x_rc c) w' a = rc_balance (x_rc c) w a /\ rc_nonce (x_rc c) w' a = rc_nonce (x_rc c) w a /\ rc_code (x_rc c) w' a = rc_code (x_rc c) w a.
Record accounts_ok {W} (c : context W) : Prop := mkAccountsOk {
  ao_account : forall w a b, same_account c w (snd (rc_access_account (x_rc c) w a)) b;
  ao_slot : forall w a k b, same_account c w (snd (rc_access_storage (x_rc c) w a k)) b;
  ao_store : forall w a k v b, same_account c w (snd (rc_set_storage (x_rc c) w a k v)) b;
  ao_transient : forall w a k v b, same_account c w (rc_set_transient (x_rc c) w a k v) b;
  ao_log : forall w a ts d b, same_account c w (rc_emit_log (x_rc c) w a ts d) b;
  ao_destruct : forall w a b x, x <> a -> rc_balance (x_rc c) w x <= rc_balance (x_rc c) (snd (rc_selfdestruct (x_rc c) w a b)) x /\
    rc_nonce (x_rc c) (snd (rc_selfdestruct (x_rc c) w a b)) x = rc_nonce (x_rc c) w x /\
    rc_code (x_rc c) (snd (rc_selfdestruct (x_rc c) w a b)) x = rc_code (x_rc c) w x;
}.
(** [total]: the sum of all balances *)
Record supply {W} (c : context W) (total : W -> Z) : Prop := mkSupply {
  su_balance : forall w a, rc_balance (x_rc c) w a <= total w;
  su_set : forall w a v, is_word v -> total (x_set_balance c w a v) = total w - rc_balance (x_rc c) w a + v;
  su_nonce : forall w a n, total (x_set_nonce c w a n) = total w;
  su_code : forall w a code, total (x_set_code c w a code) = total w;
  su_account : forall w a, total (snd (rc_access_account (x_rc c) w a)) = total w;
  su_slot : forall w a k, total (snd (rc_access_storage (x_rc c) w a k)) = total w;
  su_store : forall w a k v, total (snd (rc_set_storage (x_rc c) w a k v)) = total w;
  su_transient : forall w a k v, total (rc_set_transient (x_rc c) w a k v) = total w;
  su_log : forall w a ts d, total (rc_emit_log (x_rc c) w a ts d) = total w;
  su_destruct : forall w a b, total (snd (rc_selfdestruct (x_rc c) w a b)) <= total w;
}.
(** addresses of created contracts are none of the special addresses, nor that of the creator *)
Record addresses_ok {W} (f : floria W) : Prop := mkAddressesOk {
  ad_driver : forall s n, fl_create f s n <> DriverAddress;
  ad_state : forall s n, fl_create f s n <> StateContractAddress;
  ad_self : forall s n, fl_create f s n <> s;
  ad_driver2 : forall s x h, fl_create2 f s x h <> DriverAddress;
  ad_state2 : forall s x h, fl_create2 f s x h <> StateContractAddress;
}.
(** hashes are words, addresses have 160 bits, precompiled contracts return byte strings and ask for less than 2^63 gas *)
Record floria_ok {W} (f : floria W) : Prop := mkFloriaOk {
  fo_ctx : context_ok (fl_ctx f);
  fo_keccak : forall bs, is_word (fl_keccak f bs);
  fo_create : forall s n, is_addr (fl_create f s n);
  fo_create2 : forall s x h, is_addr (fl_create2 f s x h);
  fo_pre_gas : forall rev a c input, fl_precompile f rev a = Some c -> 0 <= pre_gas c input < 2 ^ 63;
  fo_pre_run : forall rev a c input out, fl_precompile f rev a = Some c -> pre_run c input = Some out -> Forall is_byte out /\ zlen out < 2 ^ 63;
  fo_block : forall b o p, is_addr o -> is_word p -> tx_ok (fl_block f b o p);
}.
(** clock and stack buffers, and what the model does where nothing ever happens *)
Record rest_ok (fallback : message -> cresult) (bufs : nat -> list (option Z)) : Prop := mkRestOk {
  ro_fallback : forall m, msg_ok m -> 0 <= msg_gas m -> call_ok m (fallback m);
  ro_bufs : forall n, zlen (bufs n) = 1024;
}.
(** transactions: fields have the width of their types, and the gas limit is below 2^54 *)
Record transaction_ok (t : transaction) : Prop := mkTransactionOk {
  to_sender : is_addr (t_sender t);
  to_recipient : forall a, t_recipient t = Some a -> is_addr a;
  to_nonce : 0 <= t_nonce t < 2 ^ 64;
  to_input : Forall is_byte (t_input t);
  to_input_len : zlen (t_input t) < 2 ^ 63;
  to_value : is_word (t_value t);
  to_limit : - 2 ^ 63 <= t_gas_limit t < 2 ^ 54;
  to_price : is_word (t_gas_price t);
}.

(** ** Calls *)
(** the parameters of a call: fields have the width of their types, and the gas is non-negative and below 2^54 *)
Record params_ok (p : call_params) : Prop := mkParamsOk {
  po_sender : is_addr (cp_sender p); po_recipient : is_addr (cp_recipient p); po_value : is_word (cp_value p);
  po_input : Forall is_byte (cp_input p); po_input_len : zlen (cp_input p) < 2 ^ 63; po_gas : 0 <= cp_gas p < 2 ^ 54 }.
(** the result of a call that was given [gas] *)
Definition result_ok (gas : Z) (r : call_result) : Prop :=
  0 <= gr_gas_left r <= gas /\ Z.abs (gr_gas_refund r) <= 199 * (gas - gr_gas_left r) /\ Forall is_byte (gr_output r) /\ zlen (gr_output r) < 2 ^ 63 /\ is_addr (gr_created r).

(** a processor that can be used: its VM has been created, and used through its API for any transactions before *)
Definition ready {W} (f : floria W) (fallback : message -> cresult) (tick : nat -> Z) (bufs : nat -> list (option Z)) (v : vm) : Prop :=
  rest_ok fallback bufs /\ reach (machine f fallback tick bufs) v.
(** Call, made in state [w], returns [res] (None: an error) and state [w'], whatever the VM, its caches, stack buffers and clock *)
Definition calls_to {W} (f : floria W) (w : W) (r : rctx) (kind : go_kind) (p : call_params) (res : option call_result) (w' : W) : Prop :=
  forall fallback tick bufs v, ready f fallback tick bufs v ->
    exists v', context_call f fallback tick bufs v w r kind p = Ok (res, w', v') /\ ready f fallback tick bufs v'.
(** Run, called for [t] in a block, returns [o] and leaves the state [w'], whatever the VM, its caches, stack buffers and clock *)
Definition runs_to {W} (f : floria W) (w : W) (block : Z) (t : transaction) (o : outcome) (w' : W) : Prop :=
  forall fallback tick bufs v, ready f fallback tick bufs v ->
    exists v', processor_run f fallback tick bufs v w block t = Ok (o, w', v') /\ ready f fallback tick bufs v'.

(** ** Transactions *)
Section Tx.
Context {W : Type}.
Variable f : floria W.
Notation ctx := (fl_ctx f).
Notation rc := (x_rc (fl_ctx f)).

(** the sender's nonce is the transaction's and can be incremented, the sender is not a contract and can pay for the gas *)
Record acceptable (w : W) (t : transaction) : Prop := mkAcceptable {
  ac_nonce : t_nonce t = rc_nonce rc w (t_sender t);
  ac_nonce_max : t_nonce t < 2 ^ 64 - 1;
  ac_eoa : rc_code_hash rc w (t_sender t) = 0 \/ rc_code_hash rc w (t_sender t) = fl_keccak f [];
  ac_funds : t_gas_price t * t_gas_limit t <= rc_balance rc w (t_sender t);
}.
(** the gas limit is not negative, and the price of all gas is a 256 bit number *)
Definition sensible (t : transaction) : Prop := 0 <= t_gas_limit t /\ t_gas_price t * t_gas_limit t < 2 ^ 256.
(** the price of a transaction before it does anything *)
Definition sum (l : list Z) : Z := fold_right Z.add 0 l.
Definition intrinsic (t : transaction) : Z :=
  match t_recipient t with None => 53000 | Some _ => 21000 end +
  sum (map (fun b => if b =? 0 then 4 else 16) (t_input t)) +
  match t_access_list t with None => 0 | Some l => sum (map (fun e => 2400 + 1900 * zlen (snd e)) l) end.
Definition oversized (rev : revision) (t : transaction) : Prop := rev_ge rev Shanghai = true /\ t_recipient t = None /\ 49152 < zlen (t_input t).

(** the state in which the transaction's call is made: the gas is paid for, listed accounts and slots have been accessed, and the
    nonce of the sender is incremented (by Call itself, for creations) *)
Definition pay (w : W) (t : transaction) : W :=
  x_set_balance ctx w (t_sender t) (rc_balance rc w (t_sender t) - t_gas_price t * t_gas_limit t).
Definition listed (rev : revision) (t : transaction) : list (Z * list Z) :=
  match t_access_list t with
  | Some l => if rev_ge rev Berlin
              then (t_sender t, []) :: match t_recipient t with Some a => [(a, [])] | None => [] end ++ map (fun a => (a, [])) (fl_precompiles f rev) ++ l
              else []
  | None => []
  end.
Definition access_slots (w : W) (a : Z) (keys : list Z) : W := fold_left (fun w k => snd (rc_access_storage rc w a k)) keys w.
Definition access_all (w : W) (l : list (Z * list Z)) : W := fold_left (fun w e => access_slots (snd (rc_access_account rc w (fst e))) (fst e) (snd e)) l w.
Definition started (rev : revision) (w : W) (t : transaction) : W :=
  let w := access_all (pay w t) (listed rev t) in
  match t_recipient t with Some _ => x_set_nonce ctx w (t_sender t) (t_nonce t + 1) | None => w end.

(** the gas charged for a transaction whose call returned [res]: a tenth of what is left is charged as well, unless the sender is
    the zero address, and refunds are limited to a fraction of what was used *)
Definition billed (rev : revision) (t : transaction) (res : call_result) : Z :=
  let left := gr_gas_left res in
  let spent := t_gas_limit t - (if t_sender t =? 0 then left else left - left / 10) in
  if gr_success res then spent - Z.min (gr_gas_refund res) (spent / (if rev_ge rev London then 5 else 2)) else spent.
(** the state after the transaction: unused gas (as a 64 bit number) is returned *)
Definition settled (w : W) (t : transaction) (used : Z) : W :=
  x_set_balance ctx w (t_sender t) ((rc_balance rc w (t_sender t) + t_gas_price t * ((t_gas_limit t - used) mod 2 ^ 64)) mod 2 ^ 256).
End Tx.

(** ** Calls and the receipts of transactions *)
Definition receipt_of (o : outcome) : receipt := match o with Receipt r | Error r => r end.
Section Calls.
Context {W : Type}.
Variable f : floria W.
Notation ctx := (fl_ctx f).
Notation rc := (x_rc (fl_ctx f)).
(** the call of an accepted transaction *)
Definition tx_calls (w : W) (block : Z) (t : transaction) (res : option call_result) (w1 : W) : Prop :=
  calls_to f (started f (fl_rev f block) w t) (mkR 0 false block (t_sender t) (t_gas_price t)) (match t_recipient t with None => GoCreate | Some _ => GoCall end)
    (mkCallParams (t_sender t) (match t_recipient t with Some a => a | None => 0 end) (t_value t) (t_input t) (t_gas_limit t - intrinsic t) 0 0) res w1.
(** the receipt and the state after it *)
Definition tx_result (rev : revision) (t : transaction) (res : option call_result) (w1 : W) : outcome * W :=
  match res with
  | None => (Error (mkReceipt false [] None (t_gas_limit t) []), w1)
  | Some res =>
    if negb (gr_success res) && (gr_gas_left res =? 0) then (Receipt (mkReceipt false [] None (t_gas_limit t) []), w1)
    else let w2 := settled f w1 t (billed rev t res) in
      (Receipt (mkReceipt (gr_success res) (gr_output res) (match t_recipient t with None => Some (gr_created res) | Some _ => None end) (billed rev t res) (x_logs ctx w2)), w2)
  end.
(** value transfers: they fail if the sender has too little, or the recipient would have more than 2^256 - 1 *)
Definition transferred (w : W) (v s b : Z) : option W :=
  if v =? 0 then Some w
  else if rc_balance rc w s <? v then None
  else if s =? b then Some w
  else if 2 ^ 256 <=? rc_balance rc w b + v then None
  else Some (x_set_balance ctx (x_set_balance ctx w s (rc_balance rc w s - v)) b (rc_balance rc w b + v)).
(** what a call transfers before it does anything else *)
Definition moved (w : W) (kind : go_kind) (p : call_params) : option W :=
  match kind with GoStaticCall | GoDelegateCall => Some w | _ => transferred w (cp_value p) (cp_sender p) (cp_recipient p) end.
(** the account whose code a call runs *)
Definition source (kind : go_kind) (p : call_params) : Z := match kind with GoDelegateCall | GoCallCode => cp_code_address p | _ => cp_recipient p end.
(** the message that is run for a call *)
Definition call_static (r : rctx) (kind : go_kind) : bool := match kind with GoStaticCall => true | _ => r_static r end.
Definition call_message (r : rctx) (kind : go_kind) (p : call_params) (cd : list Z) (hash : Z) : message :=
  mkMsg K_CALL (if call_static r kind then EVMC_STATIC else 0) (r_depth r) (cp_gas p) (cp_recipient p) (cp_sender p) (cp_input p) (cp_value p) 0 0
    (if list_eq_dec Z.eq_dec cd (fl_code_of f hash) then Some hash else None).
(** and what its result means *)
Definition call_answer (cr : cresult) (created : Z) : option call_result :=
  match cr_status cr with
  | EVMC_SUCCESS => Some (mkCallResult (cr_output cr) (cr_gas_left cr) (cr_gas_refund cr) created true)
  | EVMC_REVERT => Some (mkCallResult (cr_output cr) (cr_gas_left cr) (cr_gas_refund cr) created false)
  | EVMC_OUT_OF_GAS | EVMC_INVALID_INSTRUCTION | EVMC_UNDEFINED_INSTRUCTION | EVMC_BAD_JUMP_DESTINATION | EVMC_INVALID_MEMORY_ACCESS
  | EVMC_STATIC_MODE_VIOLATION | EVMC_STACK_OVERFLOW | EVMC_STACK_UNDERFLOW => Some (mkCallResult [] 0 0 created false)
  | _ => None
  end.
Definition new_address (w : W) (kind : go_kind) (p : call_params) : Z :=
  match kind with GoCreate => fl_create f (cp_sender p) (rc_nonce rc w (cp_sender p)) | _ => fl_create2 f (cp_sender p) (cp_salt p) (fl_keccak f (cp_input p)) end.
Definition taken (w : W) (a : Z) : Prop := rc_nonce rc w a <> 0 \/ rc_code_hash rc w a <> 0 /\ rc_code_hash rc w a <> fl_keccak f [].
(** the nonces of creator and new account *)
Definition registered (w : W) (creator a : Z) : W := x_set_nonce ctx (x_set_nonce ctx w creator ((rc_nonce rc w creator + 1) mod 2 ^ 64)) a 1.
(** the message that is run for a creation: the init code is also its call data *)
Definition init_message (r : rctx) (p : call_params) (new : Z) : message :=
  mkMsg K_CALL (if r_static r then EVMC_STATIC else 0) (r_depth r) (cp_gas p) new (cp_sender p) (cp_input p) (cp_value p) 0 0
    (if list_eq_dec Z.eq_dec (cp_input p) (fl_code_of f (fl_keccak f (cp_input p))) then Some (fl_keccak f (cp_input p)) else None).
(** codes that are not stored: too long, reserved (since London), not paid for *)
Definition undeployable (rev : revision) (out : list Z) (left : Z) : Prop :=
  24576 < zlen out \/ (rev_ge rev London = true /\ exists rest, out = 0xEF :: rest) \/ left < 200 * zlen out.
(** the gas used by a transaction that only transfers value *)
Definition transfer_gas (t : transaction) : Z :=
  let left := t_gas_limit t - intrinsic t in if t_sender t =? 0 then intrinsic t else intrinsic t + left / 10.
End Calls.

(** a property of the state that accesses to accounts and slots preserve, and that says that the driver is not a contract *)
Record still {W} (f : floria W) (P : W -> Prop) : Prop := mkStill {
  sl_account : forall w a, P w -> P (snd (rc_access_account (x_rc (fl_ctx f)) w a));
  sl_slot : forall w a k, P w -> P (snd (rc_access_storage (x_rc (fl_ctx f)) w a k));
  sl_driver : forall w, P w -> rc_code (x_rc (fl_ctx f)) w DriverAddress = [];
}.

(** ** The state contract: what the driver account may do *)
Inductive state_method : Set :=
| SetBalance (a v : Z) | CopyCode (to from : Z) | SwapCode (a b : Z) | SetStorage (a k v : Z) | IncNonce (a n : Z).
Definition method_name (m : state_method) : string :=
  match m with
  | SetBalance _ _ => "setBalance(address,uint256)"
  | CopyCode _ _ => "copyCode(address,address)"
  | SwapCode _ _ => "swapCode(address,address)"
  | SetStorage _ _ _ => "setStorage(address,bytes32,bytes32)"
  | IncNonce _ _ => "incNonce(address,uint256)"
  end.
Definition method_names : list string := map method_name [SetBalance 0 0; CopyCode 0 0; SwapCode 0 0; SetStorage 0 0 0; IncNonce 0 0].
(** arguments: 32 bytes each, of which an address occupies the last 20 *)
Definition an_address (bs : list Z) (a : Z) : Prop := exists pad addr, bs = pad ++ addr /\ zlen pad = 12 /\ zlen addr = 20 /\ be addr = a.
Definition a_word (bs : list Z) (v : Z) : Prop := zlen bs = 32 /\ be bs = v.
Definition encodes (bs : list Z) (m : state_method) : Prop :=
  match m with
  | SetBalance a v | IncNonce a v => exists b1 b2, bs = b1 ++ b2 /\ an_address b1 a /\ a_word b2 v
  | CopyCode a b | SwapCode a b => exists b1 b2, bs = b1 ++ b2 /\ an_address b1 a /\ an_address b2 b
  | SetStorage a k v => exists b1 b2 b3, bs = b1 ++ b2 ++ b3 /\ an_address b1 a /\ a_word b2 k /\ a_word b3 v
  end.
Section StateContract.
Context {W : Type}.
Variable f : floria W.
Notation ctx := (fl_ctx f).
Notation rc := (x_rc (fl_ctx f)).
(** the first four bytes of the hash of a method's name *)
Definition selector (name : string) : Z := fl_keccak f (ascii_bytes name) / 2 ^ 224.
Definition method_price (w : W) (m : state_method) : Z :=
  match m with
  | SetBalance _ _ | IncNonce _ _ => 9000
  | CopyCode _ from => 32000 + 203 * zlen (rc_code rc w from)
  | SwapCode a b => 64000 + 203 * (zlen (rc_code rc w a) + zlen (rc_code rc w b)) / 2
  | SetStorage _ _ _ => 20000
  end.
Definition method_allowed (m : state_method) : Prop :=
  match m with
  | SetBalance a _ => a <> DriverAddress
  | IncNonce a n => a <> DriverAddress /\ 0 < n mod 2 ^ 64 < 256
  | _ => True
  end.
Definition method_effect (w : W) (m : state_method) : W :=
  match m with
  | SetBalance a v => x_set_balance ctx w a v
  | CopyCode to from => if to =? from then w else x_set_code ctx w to (rc_code rc w from)
  | SwapCode a b => if a =? b then w else x_set_code ctx (x_set_code ctx w a (rc_code rc w b)) b (rc_code rc w a)
  | SetStorage a k v => snd (rc_set_storage rc w a k v)
  | IncNonce a n => x_set_nonce ctx w a ((rc_nonce rc w a + n mod 2 ^ 64) mod 2 ^ 64)
  end.
End StateContract.
