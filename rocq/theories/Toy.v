(** A small but complete environment: accounts with storage, warm and cold slots, logs, and a host that runs nested calls
    on the same VM.  It shows that the hypotheses of the theorems can be met, and serves for the counterexamples. *)
From Verif Require Import Base Host SpecEvm SpecVm Vm SpecStep MemFacts SpecFacts GoStorage Client SpecHost ClientFacts ApiFacts StoreFacts.
From Coq Require Import Lia ZArith List Bool.
Import ListNotations.

Record toy : Set := mkToy {
  ty_slots : list (Z * Z * Z);      (* address, key, current value *)
  ty_warm : list (Z * Z);           (* warm slots *)
  ty_warm_accounts : list Z;
  ty_logs : list (Z * list Z * list Z);
  ty_balance : Z;                   (* of every account *)
  ty_dead : list Z;                 (* self-destructed accounts *)
}.
Definition toy0 : toy := mkToy [] [] [] [] 100 [].

(** values at the start of the transaction: slot 1 of every account holds 7 *)
Definition ty_committed (w : toy) (a k : Z) : Z := if k =? 1 then 7 else 0.
Fixpoint ty_find (l : list (Z * Z * Z)) (a k d : Z) : Z :=
  match l with [] => d | (a', k', x) :: l => if (a =? a') && (k =? k') then x else ty_find l a k d end.
Definition ty_get (w : toy) (a k : Z) : Z := ty_find (ty_slots w) a k (ty_committed w a k) mod 2 ^ 256.
Definition ty_set (w : toy) (a k x : Z) : toy :=
  mkToy ((a, k, x mod 2 ^ 256) :: ty_slots w) (ty_warm w) (ty_warm_accounts w) (ty_logs w) (ty_balance w) (ty_dead w).

Definition toy_tx : tx_context := mkTx 1 0xAA 0xBB 1000 1700000000 30000000 5 250 7 3 [11; 12].
Definition toy_host : host toy := mkHost toy
  (fun w a => a <? 2 ^ 100)                                  (* account_exists *)
  ty_get
  (fun _ _ _ => 0)
  (fun w a => ty_balance w mod 2 ^ 256)
  (fun _ a => 3) (fun _ a => 99)
  (fun _ _ off n => firstn (Z.to_nat n) (skipn (Z.to_nat off) [1; 2; 3]))
  (fun _ => toy_tx)
  (fun _ n => n mod 2 ^ 256)
  (fun w a => (if existsb (Z.eqb a) (ty_warm_accounts w) then WARM else COLD,
     mkToy (ty_slots w) (ty_warm w) (a :: ty_warm_accounts w) (ty_logs w) (ty_balance w) (ty_dead w)))
  (fun w a k => (if existsb (fun p => (a =? fst p) && (k =? snd p)) (ty_warm w) || negb (ty_committed w a k =? ty_get w a k) then WARM else COLD,
     mkToy (ty_slots w) ((a, k) :: ty_warm w) (ty_warm_accounts w) (ty_logs w) (ty_balance w) (ty_dead w)))
  (fun w a k x => (GetStorageStatus (ty_committed w a k) (ty_get w a k) (x mod 2 ^ 256), ty_set w a k x))
  (fun w _ _ _ => w)
  (fun w a b => (negb (existsb (Z.eqb a) (ty_dead w)),
     mkToy (ty_slots w) (ty_warm w) (ty_warm_accounts w) (ty_logs w) (ty_balance w) (a :: ty_dead w)))
  (fun w a d ts => mkToy (ty_slots w) (ty_warm w) (ty_warm_accounts w) ((a, d, ts) :: ty_logs w) (ty_balance w) (ty_dead w)).

(** every account has the code of [toy_code]; effects of reverted and failed executions are undone; no creations *)
Definition toy_handler (code : list Z) (w : toy) (m : message) : prog toy :=
  if 1024 <? msg_depth m then Done (mkRes EVMC_CALL_DEPTH_EXCEEDED (msg_gas m) 0 [] 0) w
  else match msg_kind m with
  | K_CREATE | K_CREATE2 => Done (mkRes EVMC_SUCCESS (msg_gas m) 0 [] 0xCC) w
  | _ => Enter w London code (mkMsg (msg_kind m) (msg_flags m) (msg_depth m) (msg_gas m) (msg_recipient m) (msg_sender m)
           (msg_input m) (msg_value m) 0 0 None)
         (fun r w' => Done r (match cr_status r with EVMC_SUCCESS => w' | _ => w end))
  end.
(** Keccak-256 replaced by some function; recycled buffers contain old values *)
Definition toy_setting (code : list Z) : setting toy :=
  mkSetting toy_host (fun bs => be bs mod 2 ^ 256) (fun n => Z.min (10 * Z.of_nat n) (2 ^ 60)) (fun n => repeat (Some (Z.of_nat n)) 1024) (toy_handler code) (fun _ => []).

Lemma mod_word x : is_word (x mod 2 ^ 256). Proof. unfold is_word. apply Z.mod_pos_bound. reflexivity. Qed.
Lemma in_firstn {A} (x : A) n l : In x (firstn n l) -> In x l.
Proof. rewrite <- (firstn_skipn n l) at 2. intros. apply in_or_app. left. assumption. Qed.
Lemma in_skipn {A} (x : A) n l : In x (skipn n l) -> In x l.
Proof. rewrite <- (firstn_skipn n l) at 2. intros. apply in_or_app. right. assumption. Qed.
Lemma toy_host_ok : host_ok toy_host.
Proof.
  split; cbn [toy_host h_get_storage h_get_transient h_get_balance h_get_code_size h_get_code_hash h_copy_code h_tx_context h_block_hash]; intros.
  - apply mod_word.
  - unfold is_word. lia.
  - apply mod_word.
  - lia.
  - unfold is_word. lia.
  - split.
    + unfold zlen. rewrite firstn_length. lia.
    + assert (B : Forall is_byte [1; 2; 3]) by (repeat constructor; unfold is_byte; lia).
      rewrite Forall_forall in *. intros x Hx. apply B. eapply in_skipn, in_firstn. exact Hx.
  - split; try (unfold is_word, is_addr; cbn; lia). cbn. repeat constructor; unfold is_word; lia.
  - apply mod_word.
Qed.
Lemma plain_ok m st a : 0 <= msg_gas m -> is_addr a -> call_ok m (mkRes st (msg_gas m) 0 [] a).
Proof. intros Hm Ha. split; cbn [cr_gas_left cr_gas_refund cr_output cr_create_address]; [lia|lia|constructor|reflexivity|exact Ha]. Qed.
Lemma toy_ok code : Forall is_byte code -> zlen code <= 2 ^ 32 -> setting_ok (toy_setting code).
Proof.
  intros Hb Hl. split; cbn [toy_setting g_host g_keccak g_bufs g_handler g_code_of].
  - exact toy_host_ok.
  - intros. apply mod_word.
  - intros. unfold zlen. rewrite repeat_length. reflexivity.
  - intros w m Hm Hgas Hd. unfold toy_handler. destruct (Z.ltb_spec 1024 (msg_depth m)).
    + apply ok_done, plain_ok; [exact Hgas|unfold is_addr; lia].
    + destruct Hm as [M1 M2 M3 M4 M5 M6 M7 M8].
      assert (E : forall kd, exec_ok (fun _ => []) code (mkMsg kd (msg_flags m) (msg_depth m) (msg_gas m) (msg_recipient m) (msg_sender m) (msg_input m) (msg_value m) 0 0 None)).
      { intros kd. split; [split; assumption|assumption|exact Hb|exact Hl|discriminate]. }
      destruct (msg_kind m); try (apply ok_done, plain_ok; [exact Hgas|unfold is_addr; lia]);
      (apply ok_enter; [apply E|reflexivity|cbn; lia|]; intros r w' [R1 R2 R3 R4 R5]; apply ok_done; split; assumption).
Qed.
Lemma toy_storage code : storage_host (g_host (toy_setting code)) ty_committed.
Proof.
  split; intros; cbn [toy_setting g_host toy_host h_set_storage h_get_storage h_access_storage fst snd].
  - rewrite Z.mod_small by assumption. reflexivity.
  - unfold ty_get, ty_set. cbn [ty_slots ty_find]. unfold ty_committed. destruct (_ && _); [|reflexivity].
    rewrite Z.mod_mod by discriminate. apply Z.mod_small. assumption.
  - reflexivity.
  - split; reflexivity.
  - apply Z.eqb_neq in H. cbn [h_get_storage toy_setting g_host toy_host] in H. rewrite H, orb_true_r. reflexivity.
Qed.

(** messages and states for examples *)
Definition toy_msg (gas : Z) (input : list Z) : message := mkMsg K_CALL 0 0 gas 0x11 0x22 input 0 0 0x11 None.
Lemma toy_exec code gas input : Forall is_byte code -> zlen code <= 2 ^ 32 -> - 2 ^ 63 <= gas < 2 ^ 54 -> Forall is_byte input -> zlen input < 2 ^ 63 ->
  exec_ok (fun _ => []) code (toy_msg gas input).
Proof. intros. split; cbn; try assumption; try lia; [|discriminate]. split; cbn; try assumption; try lia; unfold is_addr, is_word; lia. Qed.
Ltac bytes := repeat constructor; unfold is_byte; lia.

(** running the toy *)
Lemma toy_execute c rv code gas input r w : Forall is_byte c -> zlen c <= 2 ^ 32 -> Forall is_byte code -> zlen code <= 2 ^ 32 ->
  - 2 ^ 63 <= gas < 2 ^ 54 -> Forall is_byte input -> zlen input < 2 ^ 63 ->
  reference (toy_setting c) toy0 rv code (toy_msg gas input) = (r, w) ->
  exists v', Execute (toy_setting c) (vm_new 0 0) toy0 rv code (toy_msg gas input) = Ok (r, w, v') /\ reach (toy_setting c) v'.
Proof.
  intros. destruct (execute_reference (toy_setting c) (toy_ok c H H0) (vm_new 0 0) toy0 rv code (toy_msg gas input)
    (reach_new _ 0%nat 0%nat) (toy_exec code gas input H1 H2 H3 H4 H5)) as [v' [E R]].
  exists v'. rewrite H6 in E. split; assumption.
Qed.
Ltac toy_run := apply toy_execute; [bytes|unfold zlen; cbn; lia|bytes|unfold zlen; cbn; lia|lia|bytes|unfold zlen; cbn; lia|vm_compute; reflexivity].
