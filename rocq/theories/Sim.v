(** The dispatch loop of the interpreter simulates the reference semantics. *)
From Verif Require Import Base Host Uint256 Memory Opcodes Interp SpecEvm ArithFacts MemFacts JumpFacts SpecFacts SpecTrace
  SimBase SimOps SimOps2 SimCall.
From Coq Require Import Lia ZArith List Bool.

(** ** The dispatch table and the op code infos agree with the instruction table *)
Definition all_revs : list revision := [Istanbul; Berlin; London; Paris; Shanghai; Cancun].
Lemma all_revs_in r : In r all_revs. Proof. destruct r; cbn; auto 10. Qed.

Definition too_old (k : op_info) (r : revision) : bool :=
  match i_since k with Some s => negb (rev_ge r s) | None => false end.

Definition info_matches (b : Z) (k : op_info) (i : instr) : bool :=
  (i_pops k =? in_args i) && (i_pushes k =? in_results i) && (i_gas k =? in_fee i) && (0 <=? i_pops k) &&
  Bool.eqb (i_nostatic k) (in_stateful i) &&
  forallb (fun r => Bool.eqb (too_old k r) (negb (rev_ge r (in_since i)))) all_revs &&
  (i_len k =? 1 + push_len b) && Bool.eqb (Interp.i_jump k) ((b =? 0x56) || (b =? 0x57)).

Definition entry_matches (b : Z) : bool :=
  match znth dispatch_table b with
  | None => false
  | Some o => match instruction b with
              | Some i => info_matches b (op_kinfo o) i
              | None => match o with INVALID => true | _ => false end
              end
  end.
Lemma entries_match b : is_byte b -> entry_matches b = true.
Proof. apply byte_check. vm_compute. reflexivity. Qed.

Record info_ok (b : Z) (k : op_info) (i : instr) : Prop := mkInfoOk {
  io_pops : i_pops k = in_args i; io_pushes : i_pushes k = in_results i; io_gas : i_gas k = in_fee i;
  io_nn : 0 <= i_pops k; io_static : i_nostatic k = in_stateful i;
  io_since : forall r, too_old k r = negb (rev_ge r (in_since i));
  io_len : i_len k = 1 + push_len b; io_jump : Interp.i_jump k = ((b =? 0x56) || (b =? 0x57));
}.
Lemma info_matches_ok b k i : info_matches b k i = true -> info_ok b k i.
Proof.
  unfold info_matches. rewrite !andb_true_iff, !Z.eqb_eq, Z.leb_le, !Bool.eqb_true_iff, forallb_forall.
  intros (((((((h1 & h2) & h3) & h4) & h5) & h6) & h7) & h8). split; auto.
  intros r. apply Bool.eqb_prop. apply h6. apply all_revs_in.
Qed.

Lemma dispatch_entry b : is_byte b -> exists o, znth dispatch_table b = Some o /\
  match instruction b with Some i => info_ok b (op_kinfo o) i | None => o = INVALID end.
Proof.
  intros Hb. pose proof (entries_match b Hb) as h. unfold entry_matches in h.
  destruct (znth dispatch_table b) as [o|]; [|discriminate]. exists o. split; [reflexivity|].
  destruct (instruction b); [apply info_matches_ok; exact h|]. destruct o; try discriminate. reflexivity.
Qed.

Section Sim.
Context {W SH : Type}.
Variable S : sys W SH.
Variable shok : SH -> Prop.
Variable call : W -> message -> cresult * W.
Variable may : W -> SH -> message -> Prop.
Variable after : SH -> Prop.
Variables (msg : message) (rev : revision) (code targets : list Z) (cache : bool) (vd : Z -> bool).

Notation HH := (s_host S).
Notation E := (make_env msg rev (pad_code code) targets cache).
Notation mst := (mst W SH).
Notation frame := (frame W).
Notation outcome := (outcome W).
Notation sim := (sim (W:=W) (SH:=SH) shok code).
Notation spec_exec := (SpecEvm.exec HH call (s_keccak S) msg rev code vd).
Notation step := (SpecEvm.step HH call (s_keccak S) msg rev code vd).

Hypothesis Hsys : sys_ok S shok call may after (msg_depth msg).
Hypothesis Hmsg : msg_ok msg.
Hypothesis Hcode : Forall is_byte code.
Hypothesis Hcode_len : zlen code <= 2 ^ 32.
Hypothesis Htl : zlen targets = zlen code.
Hypothesis Htg : forall d, 0 <= d < zlen code ->
  (data_at targets d = 1 /\ jumpdest code d) \/ (data_at targets d = 0 /\ ~ jumpdest code d).
Hypothesis Hvd : forall d, vd d = true <-> jumpdest code d.

Let Hhost := sok_host _ _ _ _ _ _ Hsys.

Ltac bw := intros; split; [reflexivity|apply bool_word_range].
Ltac tw := intros; split; [reflexivity|apply to_word_range].
Ltac txo := let t := fresh "t" in let h := fresh "h" in intros t h; destruct h; unfold is_word, is_addr in *; repeat split; try assumption; lia.

Lemma w_byte_range i v : is_word (w_byte i v).
Proof. unfold w_byte, is_word. destruct (i <? 32); [|lia]. pose proof (Z.mod_pos_bound (v / 256 ^ (31 - i)) 256). lia. Qed.
Lemma w_shl_range n v : is_word (w_shl n v).
Proof. unfold w_shl. destruct (n <? 256); [apply to_word_range|unfold is_word; lia]. Qed.
Lemma w_sar_range n v : is_word (w_sar n v).
Proof. unfold w_sar. destruct (n <? 256); [apply to_word_range|]. destruct (signed v <? 0); unfold is_word, U; lia. Qed.

Lemma sim_codesize : sim 1 1 0 (fun top _ _ => op_push (code_size E) top) (push (zlen code)).
Proof.
  replace (code_size E) with (zlen code).
  - apply sim_push. pose proof (zlen_nonneg code). unfold is_word. lia.
  - unfold code_size, make_env, e_code, pad_code, zlen. rewrite app_length, repeat_length. change (Z.to_nat kStopBytePadding) with 33%nat. change kStopBytePadding with 33. pose proof (zlen_nonneg code) as h. unfold zlen in h, Hcode_len. try unfold u64. rewrite ?Z.mod_small; lia.
Qed.

Ltac exec_case :=
  lazymatch goal with |- context [op_run _ _ ?o _ _ _] =>
  lazymatch o with
  | STOP => apply sim_sim_ask; exact (sim_stop shok code)
  | ADD => apply sim_sim_ask; apply (sim_binary shok code (fun a b => u_add b a) (fun a b => to_word (a + b))); intros; split; [unfold u_add; rewrite wrap_to_word; f_equal; lia|apply to_word_range]
  | MUL => apply sim_sim_ask; apply (sim_binary shok code (fun a b => u_mul b a) (fun a b => to_word (a * b))); intros; split; [unfold u_mul; rewrite wrap_to_word; f_equal; lia|apply to_word_range]
  | SUB => apply sim_sim_ask; apply (sim_binary shok code (fun a b => u_sub a b) (fun a b => to_word (a - b))); intros; split; [reflexivity|apply to_word_range]
  | DIV => apply sim_sim_ask; exact (sim_div shok code)
  | SDIV => apply sim_sim_ask; exact (sim_sdiv shok code)
  | MOD => apply sim_sim_ask; exact (sim_mod shok code)
  | SMOD => apply sim_sim_ask; exact (sim_smod shok code)
  | ADDMOD => apply sim_sim_ask; exact (sim_addmod shok code)
  | MULMOD => apply sim_sim_ask; exact (sim_mulmod shok code)
  | EXP => apply sim_sim_ask; exact (sim_exp shok code)
  | SIGNEXTEND => apply sim_sim_ask; apply (sim_binary shok code signextend w_signextend); intros; split; [apply signextend_spec; assumption|apply w_signextend_range; assumption]
  | LT => apply sim_sim_ask; apply (sim_binary shok code (fun a b => b2w (a <? b)) (fun a b => bool_word (a <? b))); bw
  | GT => apply sim_sim_ask; apply (sim_binary shok code (fun a b => b2w (b <? a)) (fun a b => bool_word (b <? a))); bw
  | SLT => apply sim_sim_ask; apply (sim_binary shok code (fun a b => b2w (u_slt a b)) (fun a b => bool_word (signed a <? signed b))); intros; split; [rewrite u_slt_spec by assumption; reflexivity|apply bool_word_range]
  | SGT => apply sim_sim_ask; apply (sim_binary shok code (fun a b => b2w (u_slt b a)) (fun a b => bool_word (signed b <? signed a))); intros; split; [rewrite u_slt_spec by assumption; reflexivity|apply bool_word_range]
  | EQ => apply sim_sim_ask; apply (sim_binary shok code (fun a b => b2w (a =? b)) (fun a b => bool_word (a =? b))); bw
  | ISZERO => apply sim_sim_ask; apply (sim_unary shok code (fun a => b2w (a =? 0)) (fun a => bool_word (a =? 0))); bw
  | AND => apply sim_sim_ask; apply (sim_binary shok code u_and Z.land); intros; split; [reflexivity|apply land_word; assumption]
  | OR => apply sim_sim_ask; apply (sim_binary shok code u_or Z.lor); intros; split; [reflexivity|apply lor_word; assumption]
  | XOR => apply sim_sim_ask; apply (sim_binary shok code u_xor Z.lxor); intros; split; [reflexivity|apply lxor_word; assumption]
  | NOT => apply sim_sim_ask; apply (sim_unary shok code u_not (fun a => U - 1 - a)); intros; split; [apply u_not_spec; assumption|unfold is_word, U in *; lia]
  | BYTE => apply sim_sim_ask; apply (sim_binary shok code byte_op w_byte); intros; split; [apply byte_op_spec; assumption|apply w_byte_range]
  | SHL => apply sim_sim_ask; apply (sim_binary shok code (fun a b => u_shl b a) w_shl); intros; split; [apply u_shl_spec; unfold is_word in *; lia|apply w_shl_range]
  | SHR => apply sim_sim_ask; apply (sim_binary shok code (fun a b => u_shr b a) w_shr); intros; split; [apply u_shr_spec; unfold is_word in *; lia|apply w_shr_range; unfold is_word in *; lia]
  | SAR => apply sim_sim_ask; apply (sim_binary shok code sar w_sar); intros; split; [apply sar_spec; assumption|apply w_sar_range]
  | SHA3 => apply sim_sim_ask; exact (sim_sha3 S shok call may after msg rev code targets cache Hsys)
  | ADDRESS => apply sim_sim_ask; exact (sim_push shok code (msg_recipient msg) (addr_word _ (mok_recipient _ Hmsg)))
  | BALANCE => apply sim_sim_ask; exact (sim_account S shok msg rev code targets cache (h_get_balance HH) (hok_get_balance _ Hhost))
  | ORIGIN => apply sim_sim_ask; apply (sim_tx S shok call may after msg code Hsys tx_origin); txo
  | CALLER => apply sim_sim_ask; exact (sim_push shok code (msg_sender msg) (addr_word _ (mok_sender _ Hmsg)))
  | CALLVALUE => apply sim_sim_ask; exact (sim_push shok code (msg_value msg) (mok_value _ Hmsg))
  | CALLDATALOAD => apply sim_sim_ask; exact (sim_calldataload shok msg rev code targets cache Hmsg)
  | CALLDATASIZE => apply sim_sim_ask; apply (sim_push shok code (zlen (msg_input msg))); pose proof (mok_input_len _ Hmsg); pose proof (zlen_nonneg (msg_input msg)); unfold is_word; lia
  | CALLDATACOPY => apply sim_sim_ask; exact (sim_calldatacopy S shok call may after msg rev code targets cache Hsys Hmsg)
  | CODESIZE => apply sim_sim_ask; apply sim_codesize
  | CODECOPY => apply sim_sim_ask; exact (sim_codecopy S shok call may after msg rev code targets cache Hsys Hcode Hcode_len)
  | GASPRICE => apply sim_sim_ask; apply (sim_tx S shok call may after msg code Hsys tx_gas_price); txo
  | EXTCODESIZE => apply sim_sim_ask; apply (sim_account S shok msg rev code targets cache (h_get_code_size HH)); intros ? ?; match goal with |- is_word (h_get_code_size _ ?w ?a) => pose proof (hok_get_code_size _ Hhost w a) end; unfold is_word; lia
  | EXTCODECOPY => apply sim_sim_ask; exact (sim_extcodecopy S shok call may after msg rev code targets cache Hsys)
  | RETURNDATASIZE => apply sim_sim_ask; exact (sim_returndatasize shok code)
  | RETURNDATACOPY => apply sim_sim_ask; exact (sim_returndatacopy S shok call may after msg code Hsys)
  | EXTCODEHASH => apply sim_sim_ask; exact (sim_account S shok msg rev code targets cache (h_get_code_hash HH) (hok_get_code_hash _ Hhost))
  | BLOCKHASH => apply sim_sim_ask; exact (sim_blockhash S shok call may after msg code Hsys)
  | COINBASE => apply sim_sim_ask; apply (sim_tx S shok call may after msg code Hsys tx_coinbase); txo
  | TIMESTAMP => apply sim_sim_ask; apply (sim_tx S shok call may after msg code Hsys tx_timestamp); txo
  | NUMBER => apply sim_sim_ask; apply (sim_tx S shok call may after msg code Hsys tx_number); txo
  | PREVRANDAO => apply sim_sim_ask; apply (sim_tx S shok call may after msg code Hsys tx_prev_randao); txo
  | GASLIMIT => apply sim_sim_ask; apply (sim_tx S shok call may after msg code Hsys tx_gas_limit); txo
  | CHAINID => apply sim_sim_ask; apply (sim_tx S shok call may after msg code Hsys tx_chain_id); txo
  | SELFBALANCE => apply sim_sim_ask; exact (sim_selfbalance S shok call may after msg rev code targets cache Hsys)
  | BASEFEE => apply sim_sim_ask; apply (sim_tx S shok call may after msg code Hsys tx_base_fee); txo
  | BLOBHASH => apply sim_sim_ask; exact (sim_blobhash S shok call may after msg code Hsys)
  | BLOBBASEFEE => apply sim_sim_ask; apply (sim_tx S shok call may after msg code Hsys tx_blob_base_fee); txo
  | POP => apply sim_sim_ask; exact (sim_pop shok code)
  | MCOPY => apply sim_sim_ask; exact (sim_mcopy S shok call may after msg code Hsys)
  | PUSH0 => apply sim_sim_ask; apply (sim_push shok code 0); unfold is_word; lia
  | MLOAD => apply sim_sim_ask; exact (sim_mload S shok call may after msg code Hsys)
  | MSTORE => apply sim_sim_ask; exact (sim_mstore S shok call may after msg code Hsys)
  | MSTORE8 => apply sim_sim_ask; exact (sim_mstore8 S shok call may after msg code Hsys)
  | SLOAD => apply sim_sim_ask; exact (sim_sload S shok call may after msg rev code targets cache Hsys)
  | SSTORE => apply sim_sim_ask; exact (sim_sstore S shok msg rev code targets cache)
  | PC => apply sim_sim_ask; exact (sim_pc shok code Hcode_len)
  | MSIZE => apply sim_sim_ask; exact (sim_msize shok code)
  | GAS => apply sim_sim_ask; exact (sim_gas shok code)
  | JUMPDEST => apply sim_sim_ask; exact (sim_jumpdest shok code)
  | TLOAD => apply sim_sim_ask; exact (sim_tload S shok call may after msg rev code targets cache Hsys)
  | TSTORE => apply sim_sim_ask; exact (sim_tstore S shok msg rev code targets cache)
  | PUSHn ?n => apply sim_sim_ask; apply (sim_pushn shok msg rev code targets cache Hcode n); lia
  | DUPn ?n => apply sim_sim_ask; apply (sim_dup shok code n); lia
  | SWAPn ?n => apply sim_sim_ask; apply (sim_swap shok code n); lia
  | LOGn ?n => apply sim_sim_ask; apply (sim_log S shok call may after msg rev code targets cache Hsys n); lia
  | RETURN => apply sim_sim_ask; apply (sim_return S shok call may after msg code Hsys Returned); discriminate
  | REVERT => apply sim_sim_ask; apply (sim_return S shok call may after msg code Hsys Reverted); discriminate
  | INVALID => apply sim_sim_ask; exact (sim_invalid shok code)
  | SELFDESTRUCT => apply sim_sim_ask; exact (sim_selfdestruct S shok call may after msg rev code targets cache Hsys)
  | CREATE => exact (sim_create S shok call may after msg rev code targets cache Hsys Hmsg false)
  | CREATE2 => exact (sim_create S shok call may after msg rev code targets cache Hsys Hmsg true)
  | CALL => exact (sim_call S shok call may after msg rev code targets cache Hsys Hmsg OpCall)
  | CALLCODE => exact (sim_call S shok call may after msg rev code targets cache Hsys Hmsg OpCallCode)
  | DELEGATECALL => exact (sim_call S shok call may after msg rev code targets cache Hsys Hmsg OpDelegateCall)
  | STATICCALL => exact (sim_call S shok call may after msg rev code targets cache Hsys Hmsg OpStaticCall)
  end end.

(** the nested execution asked for by instruction [b] behind its static checks *)
Definition ask_for (b : Z) (f : frame) : option (W * message) :=
  match b with
  | 0xF0 => asked (q_create HH msg rev false f)
  | 0xF1 => asked (q_call HH msg rev OpCall f)
  | 0xF2 => asked (q_call HH msg rev OpCallCode f)
  | 0xF4 => asked (q_call HH msg rev OpDelegateCall f)
  | 0xF5 => asked (q_create HH msg rev true f)
  | 0xFA => asked (q_call HH msg rev OpStaticCall f)
  | _ => None
  end.

Definition dsim (b : Z) : Prop := forall o, znth dispatch_table b = Some o -> Interp.i_jump (op_kinfo o) = false ->
    sim_ask shok may after code (ask_for b) (i_len (op_kinfo o)) (i_delta (op_kinfo o)) (i_pops (op_kinfo o)) (fun top pc gas => op_run S E o top pc gas) (spec_exec b).

Lemma dispatch_sim b : is_byte b -> dsim b.
Proof.
  apply byte_cases. cbn [seq map Z.of_nat Pos.of_succ_nat Pos.succ].
  repeat (apply Forall_cons; [
    let o := fresh "o" in let Eo := fresh "Eo" in let J := fresh "J" in
    intros o Eo J; vm_compute in Eo; injection Eo as <-; try discriminate J; clear J;
    exec_case
  | ]).
  apply Forall_nil.
Qed.

(** ** One iteration of the dispatch loop *)

(** Bounds on the state between instructions (a message may have negative gas). *)
Record inv0 (f : frame) : Prop := mkInv0 {
  inv0_lo : - 2 ^ 63 <= f_gas f;
  inv0_mem : Z.max 0 (f_gas f) + Gmem (f_active f) < 2 ^ 54;
  inv0_ref : Z.abs (f_refund f) + 199 * Z.max 0 (f_gas f) < 2 ^ 62;
  inv0_pc : 0 <= f_pc f <= zlen code + 32;
}.

Definition run_post (ok : SH -> Prop) (top delta : Z) (s : mst) (out : outcome) (r : run_result) (s' : mst) : Prop :=
  match out with
  | Next f' => r_state r = kRunning /\ r_pc r = Some (f_pc f') /\ r_gas r = f_gas f' /\ rel ok (top - delta) s' f' /\
      0 <= f_pc f' <= zlen code + 32
  | Halt h data f' =>
      r_state r = halt_state h /\ r_pc r = Some (f_pc f') /\ r_gas r = f_gas f' /\
      (h = Stopped -> data = [] /\ m_ret s' = f_ret f') /\ (h <> Stopped -> m_ret s' = data) /\
      rel ok (top - delta) (set_ret (f_ret f') s') f'
  | Fail e f' =>
      r_state r = fail_state e /\
      m_buf s' = m_buf s /\ m_mem s' = m_mem s /\ m_ret s' = m_ret s /\ m_ref s' = m_ref s /\
      m_w s' = f_world f' /\ f_refund f' = m_ref s /\ ok (m_sh s')
  end.

Notation dispatch := (SpecTrace.dispatch HH call (s_keccak S) msg rev code vd).
Notation asks := (SpecEvm.asks HH msg rev code).

(** the reference outcome of one iteration: one instruction, or (not stepping) a taken jump
    together with the JUMPDEST it arrives at *)
Definition iteration (stepping : bool) (f : frame) (out : outcome) : Prop :=
  out = if stepping then step f else dispatch f.

Lemma padded_at p : 0 <= p <= zlen code + 32 -> znth (pad_code code) p = Some (code_at code p).
Proof.
  intros Hp. unfold code_at, data_at, pad_code. destruct (Z.leb_spec 0 p); [|lia]. cbn [andb].
  change (Z.to_nat kStopBytePadding) with 33%nat. unfold znth. destruct (Z.ltb_spec p 0); [lia|].
  destruct (Z.ltb_spec p (zlen code)) as [h|h].
  - rewrite nth_error_app1 by (unfold zlen in h; lia). apply nth_error_nth'. unfold zlen in h; lia.
  - rewrite nth_error_app2 by (unfold zlen in h; lia).
    rewrite (nth_error_nth' _ 0) by (rewrite repeat_length; unfold zlen in *; lia).
    f_equal. apply nth_repeat.
Qed.

Lemma len_fits p : 0 <= p <= zlen code + 32 -> p + (1 + push_len (code_at code p)) <= zlen code + 33.
Proof.
  intros Hp. destruct (Z.ltb_spec p (zlen code)).
  - pose proof (push_len_le (code_at code p)). lia.
  - replace (code_at code p) with 0; [change (push_len 0) with 0; lia|].
    unfold code_at, data_at. destruct (Z.ltb_spec p (zlen code)); [lia|]. rewrite andb_false_r. reflexivity.
Qed.

Lemma code_nonzero p : code_at code p <> 0 -> p < zlen code.
Proof. unfold code_at, data_at. destruct (Z.ltb_spec p (zlen code)); [auto|]. rewrite andb_false_r. congruence. Qed.

Lemma wp_error st s (Q : run_result -> mst -> Prop) : Q (mkRun st None 0) s -> wp (run_error st) s Q.
Proof. intros h; exact h. Qed.

Lemma jump_check d s (Q : bool -> mst -> Prop) : is_word d ->
  Q (vd d) s -> wp (check_jump_dest E d) s Q.
Proof.
  intros Hd HQ. unfold check_jump_dest. cbn [make_env e_targets].
  assert (Hbig : zlen code <= d -> vd d = false).
  { intros. destruct (vd d) eqn:E1; [|reflexivity]. apply Hvd in E1. destruct E1 as (_ & ? & _). lia. }
  unfold is_word in Hd.
  destruct (Z.eqb_spec (d / 2 ^ 64) 0) as [h0|h0]; cbn [negb].
  - assert (d < 2 ^ 64). { apply Z.div_small_iff in h0; lia. }
    unfold u64. rewrite Z.mod_small by lia.
    destruct (Z.leb_spec (zlen targets) d).
    + rewrite <- Hbig by lia. exact HQ.
    + rewrite znth_data by lia. destruct (Htg d ltac:(lia)) as [[-> hj]|[-> hj]]; cbn [Z.eqb negb].
      * apply Hvd in hj. rewrite hj in HQ. exact HQ.
      * destruct (vd d) eqn:E1; [apply Hvd in E1; contradiction|]. exact HQ.
  - rewrite <- Hbig; [exact HQ|]. destruct (Z.ltb_spec d (2 ^ 64)); [exfalso; apply h0; apply Z.div_small; lia|lia].
Qed.

Lemma vd_range d : vd d = true -> 0 <= d < zlen code /\ code_at code d = 0x5B.
Proof. intros h. apply Hvd in h. destruct h as (h1 & h2 & h3). pose proof (start_nonneg _ _ h1). auto. Qed.

Lemma step_jumpdest f : code_at code (f_pc f) = 0x5B -> zlen (f_stack f) <= 1024 ->
  step f = if f_gas f <? 1 then Fail OutOfGas f else Next (with_pc (f_pc f + 1) (with_gas (f_gas f - 1) f)).
Proof.
  intros E1 Hs. unfold SpecEvm.step. rewrite E1. cbn [instruction in_since in_stateful in_args in_results in_fee].
  replace (rev_ge rev Istanbul) with true by (destruct rev; reflexivity). cbn [negb andb].
  pose proof (zlen_nonneg (f_stack f)).
  destruct (Z.ltb_spec (zlen (f_stack f)) 0); [lia|].
  destruct (Z.ltb_spec 1024 (zlen (f_stack f) - 0 + 0)); [lia|].
  unfold charge. destruct (f_gas f <? 1); reflexivity.
Qed.

Lemma rep_height buf top l : rep buf top l -> zlen l <= 1024 /\ zlen l = 1024 - top.
Proof. intros [? ? ? ?]. lia. Qed.

Lemma static_eq : e_static E = static msg.
Proof. unfold make_env, e_static, static. apply static_flag. apply Hmsg. Qed.

Lemma rel_unchanged top (s : mst) (f : frame) : rel shok top s f -> shok (m_sh s) /\ f_refund f = m_ref s /\ m_w s = f_world f.
Proof. intros [? ? ? ? ? ? ? ? ?]. auto. Qed.

Lemma iteration_fail stepping f e g : step f = Fail e g -> iteration stepping f (step f).
Proof. intros E1. unfold iteration, SpecTrace.dispatch. rewrite E1. destruct stepping; reflexivity. Qed.
Lemma iteration_straight stepping f : takes_jump code f = false -> iteration stepping f (step f).
Proof. intros E1. unfold iteration, SpecTrace.dispatch. rewrite E1. destruct stepping; [reflexivity|]. destruct (step f); reflexivity. Qed.

(** one dispatch is one instruction, or a taken jump together with the JUMPDEST behind it *)
Lemma iteration_cases stepping f out : iteration stepping f out ->
  out = step f \/ (stepping = false /\ exists f1, step f = Next f1 /\ code_at code (f_pc f1) = 0x5B /\ out = step f1).
Proof.
  unfold iteration, SpecTrace.dispatch. destruct stepping; [auto|]. intros ->.
  destruct (step f) as [f1|h d f1|e f1] eqn:E1; auto. destruct (takes_jump code f) eqn:E2; auto.
  right. split; [reflexivity|]. exists f1. split; [reflexivity|]. split; [|reflexivity].
  assert (X : exists (d : Z), f_pc f1 = d /\ vd d = true); [|destruct X as (d & -> & X); apply (vd_range d X)].
  unfold takes_jump in E2. revert E1. unfold SpecEvm.step. apply orb_true_iff in E2. rewrite andb_true_iff, !Z.eqb_eq in E2.
  destruct E2 as [->|[-> E2]]; cbn [instruction in_since in_stateful in_args in_results in_fee];
  (destruct (negb _); [discriminate|]); cbn [andb]; (destruct (_ <? _); [discriminate|]); (destruct (1024 <? _); [discriminate|]);
  unfold charge; (destruct (f_gas f <? _); [discriminate|]).
  - unfold SpecEvm.exec, SpecEvm.i_jump. cbn [f_stack with_gas]. destruct (f_stack f) as [|d st]; [discriminate|].
    destruct (vd d) eqn:Ed; [|discriminate]. intros E1. injection E1 as <-. exists d. auto.
  - unfold SpecEvm.exec, SpecEvm.i_jumpi. cbn [f_stack with_gas]. destruct (f_stack f) as [|d [|c st]]; [discriminate..|].
    destruct (c =? 0); [discriminate|]. destruct (vd d) eqn:Ed; [|discriminate]. intros E1. injection E1 as <-. exists d. auto.
Qed.

Lemma run_op_sim stepping b o top f s :
  b = code_at code (f_pc f) -> znth dispatch_table b = Some o ->
  rel shok top s f -> inv0 f -> (forall w m, asks f = Some (w, m) -> may w (m_sh s) m) ->
  exists out, iteration stepping f out /\
    wp (run_op S E stepping o (f_pc f) (f_gas f) top (zlen (f_stack f))) s
      (run_post (match asks f with Some _ => after | None => shok end) top (i_delta (op_kinfo o)) s out).
Proof.
  intros Eb Eo R I Hask.
  assert (Hb : is_byte b) by (rewrite Eb; apply code_at_byte; assumption).
  destruct (dispatch_entry b Hb) as (o' & Eo' & Hinfo). rewrite Eo in Eo'. injection Eo' as <-.
  pose proof (rel_unchanged _ _ _ R) as (U1 & U2 & U3).
  destruct (rep_height _ _ _ (rel_stack _ _ _ _ R)) as [Hh Hht].
  pose proof (zlen_nonneg (f_stack f)) as Hnn.
  pose proof I as [I1 I2 I3 I4].
  assert (Hstep : step f = match instruction b with
    | None => if f_gas f <? 0 then Fail OutOfGas f else Fail InvalidInstruction f
    | Some i =>
      if negb (rev_ge rev (in_since i)) then Fail UndefinedInstruction f
      else if in_stateful i && static msg then Fail StaticViolation f
      else if zlen (f_stack f) <? in_args i then Fail StackUnderflow f
      else if 1024 <? zlen (f_stack f) - in_args i + in_results i then Fail StackOverflow f
      else charge (in_fee i) f (spec_exec b)
    end). { rewrite Eb. reflexivity. }
  assert (Hasks : asks f = match instruction b with
    | None => None
    | Some i => if negb (rev_ge rev (in_since i)) || (in_stateful i && static msg) || (zlen (f_stack f) <? in_args i) ||
       (1024 <? zlen (f_stack f) - in_args i + in_results i) || (f_gas f <? in_fee i) then None
       else ask_for b (with_gas (f_gas f - in_fee i) f)
    end). { rewrite Eb. reflexivity. }
  destruct (instruction b) as [i|] eqn:Ei.
  2: { subst o. rewrite Hasks. exists (step f). split; [destruct (f_gas f <? 0); eapply iteration_fail; exact Hstep|]. rewrite Hstep.
       unfold run_op. cbn [op_kinfo info i_since i_nostatic i_pops i_pushes i_gas i_len Interp.i_jump andb].
       change (i_delta (info 0 0 0)) with 0. cbn [Z.ltb Z.compare andb].
       change (i_delta (op_kinfo INVALID)) with 0.
       destruct (Z.ltb_spec (f_gas f) 0).
       - apply wp_error. cbn. auto 10.
       - apply wp_bind. eapply wp_i64; [lia|]. cbn [op_run]. apply wp_bind. apply wp_ret. cbn. auto 10. }
  destruct Hinfo as [K1 K2 K3 K4 K5 K6 K7 K8].
  unfold run_op. change (match i_since (op_kinfo o) with Some r => negb (rev_ge (e_rev E) r) | None => false end) with (too_old (op_kinfo o) rev).
  rewrite K6, K5, static_eq.
  destruct (negb (rev_ge rev (in_since i))) eqn:Hsince.
  { cbn [orb] in Hasks. rewrite Hasks. exists (step f). split; [eapply iteration_fail; rewrite Hstep; reflexivity|]. rewrite Hstep. apply wp_error. cbn. auto 10. }
  destruct (in_stateful i && static msg) eqn:Hstat.
  { cbn [orb] in Hasks. rewrite Hasks. exists (step f). split; [eapply iteration_fail; rewrite Hstep; reflexivity|]. rewrite Hstep. apply wp_error. cbn. auto 10. }
  rewrite <- K1, <- K2, <- K3 in Hstep, Hasks. cbn [orb] in Hasks.
  replace ((0 <? i_pops (op_kinfo o)) && (zlen (f_stack f) <? i_pops (op_kinfo o))) with (zlen (f_stack f) <? i_pops (op_kinfo o))
    by (destruct (Z.ltb_spec (zlen (f_stack f)) (i_pops (op_kinfo o))), (Z.ltb_spec 0 (i_pops (op_kinfo o))); lia || reflexivity).
  destruct (Z.ltb_spec (zlen (f_stack f)) (i_pops (op_kinfo o))) as [h1|h1].
  { cbn [orb] in Hasks. rewrite Hasks. exists (step f). split; [eapply iteration_fail; rewrite Hstep; reflexivity|]. rewrite Hstep. apply wp_error. cbn. auto 10. }
  replace ((0 <? i_delta (op_kinfo o)) && (kStackSize - zlen (f_stack f) <? i_delta (op_kinfo o)))
    with (1024 <? zlen (f_stack f) - i_pops (op_kinfo o) + i_pushes (op_kinfo o)).
  2: { unfold i_delta, kStackSize. bool_cases; cbn [andb]; try lia; reflexivity. }
  destruct (Z.ltb_spec 1024 (zlen (f_stack f) - i_pops (op_kinfo o) + i_pushes (op_kinfo o))) as [h2|h2].
  { cbn [orb] in Hasks. rewrite Hasks. exists (step f). split; [eapply iteration_fail; rewrite Hstep; reflexivity|]. rewrite Hstep. apply wp_error. cbn. auto 10. }
  unfold charge in Hstep.
  destruct (Z.ltb_spec (f_gas f) (i_gas (op_kinfo o))) as [h3|h3].
  { cbn [orb] in Hasks. rewrite Hasks. exists (step f). split; [eapply iteration_fail; rewrite Hstep; reflexivity|]. rewrite Hstep. apply wp_error. cbn. auto 10. }
  pose proof (fee_nn b i Hb Ei) as Hfee. rewrite <- K3 in Hfee.
  set (f1 := with_gas (f_gas f - i_gas (op_kinfo o)) f) in *.
  assert (R1 : rel shok top s f1) by (destruct R; split; assumption).
  assert (Inv1 : inv f1). { split; unfold f1; cbn [with_gas f_gas f_active f_refund]; lia. }
  assert (G1 : f_gas f1 = f_gas f - i_gas (op_kinfo o)) by reflexivity.
  assert (P1 : f_pc f1 = f_pc f) by reflexivity.
  assert (S1 : f_stack f1 = f_stack f) by reflexivity.
  assert (RF1 : f_refund f1 = f_refund f) by reflexivity.
  assert (W1 : f_world f1 = f_world f) by reflexivity.
  destruct (Interp.i_jump (op_kinfo o)) eqn:EJ.
  - (* jumps *)
    symmetry in K8. apply orb_true_iff in K8. rewrite !Z.eqb_eq in K8.
    replace (ask_for b f1) with (@None (W * message)) in Hasks by (destruct K8 as [-> | ->]; reflexivity).
    rewrite Hasks.
    assert (Hj : exists (taken : bool) d st', znth (f_stack f) 0 = Some d /\ is_word d /\ st' = skipn (Z.to_nat (- i_delta (op_kinfo o))) (f_stack f) /\
      0 <= - i_delta (op_kinfo o) <= zlen (f_stack f) /\
      taken = takes_jump code f /\
      step f = (if taken then if vd d then Next (with_pc d (with_stack st' f1)) else Fail BadJump f1 else yield st' f1) /\
      (forall (Q : bool -> mst -> Prop), Q taken s -> wp (run_jump o top) s Q)).
    { rewrite Hstep. pose proof (rel_stack _ _ _ _ R1) as Rs. pose proof (rel_words _ _ _ _ R1) as Rw. rewrite S1 in Rs, Rw.
      destruct K8 as [-> | ->]; vm_compute in Eo; injection Eo as <-; cbn [op_kinfo i_pops] in h1;
      (destruct (f_stack f) as [|d st] eqn:Est; [exfalso; rewrite zlen_nil in *; lia|]).
      - exists true, d, st. split; [reflexivity|]. split; [inversion Rw; assumption|]. split; [reflexivity|].
        split; [change (i_delta (op_kinfo JUMP)) with (-1); zl; lia|]. split; [unfold takes_jump; rewrite <- Eb; reflexivity|]. split.
        + unfold SpecEvm.exec, SpecEvm.i_jump. rewrite S1. reflexivity.
        + intros Q HQ. exact HQ.
      - destruct st as [|c st]; [exfalso; zl; lia|].
        exists (negb (c =? 0)), d, st. split; [reflexivity|]. split; [inversion Rw; assumption|]. split; [reflexivity|].
        split; [change (i_delta (op_kinfo JUMPI)) with (-2); zl; lia|]. split; [unfold takes_jump; rewrite <- Eb, Est; reflexivity|]. split.
        + unfold SpecEvm.exec, SpecEvm.i_jumpi. rewrite S1. destruct (c =? 0); reflexivity.
        + intros Q HQ. unfold run_jump. apply wp_bind. eapply wp_rd; [exact Rs|reflexivity|]. exact HQ. }
    destruct Hj as (taken & d & st' & Ed & Wd & Est' & Hdl & Etk & Estep & Hrun).
    assert (Rn : forall g p, rel shok (top - i_delta (op_kinfo o)) s (with_pc p (with_stack st' (with_gas g f1)))).
    { intros g p. destruct R1 as [A1 A2 A3 A4 A5 A6 A7 A8 A9]. rewrite S1 in A1, A2. split; fld; try assumption.
      - rewrite Est'. eapply rep_conv with (k := - i_delta (op_kinfo o)); [exact A1|lia|reflexivity|lia].
      - rewrite Est'. apply Forall_skipn'. assumption. }
    destruct taken.
    + destruct (vd d) eqn:Evd.
      * destruct (vd_range d Evd) as [Hdr Hd5b].
        assert (Eu : u32 d = d) by (unfold u32; apply Z.mod_small; lia).
        destruct stepping.
        -- exists (step f). split; [reflexivity|]. rewrite Estep.
           apply wp_bind. eapply wp_i64; [lia|]. apply wp_bind. apply Hrun. apply wp_bind.
           eapply wp_rd; [exact (rel_stack _ _ _ _ R)|exact Ed|]. apply wp_bind. apply jump_check; [exact Wd|]. rewrite Evd. cbn [negb].
           rewrite Eu. apply wp_ret. cbn [run_post r_state r_pc r_gas]. split; [reflexivity|]. split; [reflexivity|]. split; [reflexivity|].
           split; [exact (Rn (f_gas f1) d)|cbn; lia].
        -- set (f2 := with_pc d (with_stack st' f1)) in *.
           exists (step f2). split; [unfold iteration, SpecTrace.dispatch; rewrite Estep, <- Etk; reflexivity|].
           assert (Hst2 : zlen (f_stack f2) <= 1024). { unfold f2; fld. rewrite Est', zlen_skipn; lia. }
           rewrite (step_jumpdest f2 Hd5b Hst2).
           apply wp_bind. eapply wp_i64; [lia|]. apply wp_bind. apply Hrun. apply wp_bind.
           eapply wp_rd; [exact (rel_stack _ _ _ _ R)|exact Ed|]. apply wp_bind. apply jump_check; [exact Wd|]. rewrite Evd. cbn [negb].
           rewrite Eu. change (i_gas (op_kinfo JUMPDEST)) with 1. change (f_gas f2) with (f_gas f - i_gas (op_kinfo o)).
           destruct (Z.ltb_spec (f_gas f - i_gas (op_kinfo o)) 1).
           ++ apply wp_error. cbn. auto 10.
           ++ apply wp_bind. eapply wp_i64; [lia|]. apply wp_ret. cbn [run_post r_state r_pc r_gas].
              split; [reflexivity|]. split; [reflexivity|]. split; [reflexivity|].
              split; [exact (Rn (f_gas f - i_gas (op_kinfo o) - 1) (d + 1))|cbn; lia].
      * exists (step f). split; [eapply iteration_fail; exact Estep|]. rewrite Estep.
        apply wp_bind. eapply wp_i64; [lia|]. apply wp_bind. apply Hrun. apply wp_bind.
        eapply wp_rd; [exact (rel_stack _ _ _ _ R)|exact Ed|]. apply wp_bind. apply jump_check; [exact Wd|]. rewrite Evd. cbn [negb].
        apply wp_error. cbn. auto 10.
    + exists (step f). split; [apply iteration_straight; auto|]. rewrite Estep.
      apply wp_bind. eapply wp_i64; [lia|]. apply wp_bind. apply Hrun. apply wp_ret. cbn [run_post yield next r_state r_pc r_gas].
      split; [reflexivity|]. split; [reflexivity|]. split; [reflexivity|]. split; [exact (Rn (f_gas f1) (f_pc f + 1))|].
      cbn. assert (f_pc f < zlen code); [|lia]. apply code_nonzero. rewrite <- Eb. lia.
  - (* other instructions *)
    exists (step f). split.
    { apply iteration_straight. unfold takes_jump. rewrite <- Eb. symmetry in K8. apply orb_false_iff in K8. destruct K8 as [-> ->]. reflexivity. }
    rewrite Hasks in Hask |- *.
    rewrite Hstep.
    apply wp_bind. eapply wp_i64; [lia|].
    pose proof (dispatch_sim b Hb o Eo EJ top f1 s R1 Inv1) as D.
    rewrite S1, P1, G1 in D. pose proof (len_fits (f_pc f) I4) as LF. rewrite <- Eb, <- K7 in LF.
    specialize (D h1 ltac:(unfold i_delta; lia) ltac:(lia) LF Hask).
    apply wp_bind. eapply wp_mono; [exact D|]. clear D. intros r s' HP.
    unfold op_post in HP. destruct (spec_exec b f1) as [f'|h data f'|e f'] eqn:Eex.
    + destruct HP as (E1 & E2 & E3 & E4 & E5). rewrite E1, G1 in *. rewrite P1 in E4.
      assert (HPC : 0 <= f_pc f' <= zlen code + 32).
      { assert (b <> 0) by (intros ->; discriminate Eex). assert (f_pc f < zlen code) by (apply code_nonzero; rewrite <- Eb; assumption).
        pose proof (push_len_nonneg b). pose proof (push_len_le b). lia. }
      destruct (Z.ltb_spec 0 (o_dyn r)).
      * destruct (Z.ltb_spec (f_gas f - i_gas (op_kinfo o)) (o_dyn r)); [lia|].
        apply wp_bind. eapply wp_i64; [lia|]. apply wp_ret. cbn [run_post r_state r_pc r_gas].
        split; [reflexivity|]. split; [congruence|]. split; [lia|]. split; assumption.
      * apply wp_ret. cbn [run_post r_state r_pc r_gas].
        split; [reflexivity|]. split; [congruence|]. split; [lia|]. split; assumption.
    + destruct HP as (E1 & E2 & E3 & E4 & E5 & E6 & E7). rewrite E1, G1 in *. rewrite P1 in E4.
      destruct (Z.ltb_spec 0 (o_dyn r)).
      * destruct (Z.ltb_spec (f_gas f - i_gas (op_kinfo o)) (o_dyn r)); [lia|].
        apply wp_bind. eapply wp_i64; [lia|]. apply wp_ret. cbn [run_post r_state r_pc r_gas].
        split; [reflexivity|]. split; [congruence|]. split; [lia|auto].
      * apply wp_ret. cbn [run_post r_state r_pc r_gas].
        split; [reflexivity|]. split; [congruence|]. split; [lia|auto].
    + destruct HP as (HP & E2 & E3 & E4 & E5 & E6 & E7 & E8). rewrite G1 in *.
      assert (E9 : f_refund f' = m_ref s) by congruence.
      destruct HP as [(F1 & F2 & ->)|(F1 & F2)].
      * destruct (Z.ltb_spec 0 (o_dyn r)); [|lia].
        destruct (Z.ltb_spec (f_gas f - i_gas (op_kinfo o)) (o_dyn r)); [|lia].
        apply wp_error. cbn. auto 10.
      * destruct (Z.ltb_spec 0 (o_dyn r)).
        -- destruct (Z.ltb_spec (f_gas f - i_gas (op_kinfo o)) (o_dyn r)); [lia|].
           apply wp_bind. eapply wp_i64; [lia|]. apply wp_ret. cbn. rewrite F1. auto 10.
        -- apply wp_ret. cbn. rewrite F1. auto 10.
Qed.

(** ** The dispatch loop *)
Hypothesis Hmay : forall w sh m, shok sh -> may w sh m.
Hypothesis Hafter : forall sh, after sh -> shok sh.

(** What an observer's hooks may do: they see the context (whose stack is well formed if the observer
    asks for it) and change only the shared VM state. *)
Record obs_ok (ob : observer) : Prop := mkObsOk {
  ook_pre_run : forall sh, shok sh -> exists sh', ob_pre_run ob msg sh = Ok sh' /\ shok sh';
  ook_post_run : forall sh, shok sh -> exists sh', ob_post_run ob msg sh = Ok sh' /\ shok sh';
  ook_pre : forall o c sh, oc_msg c = msg -> (ob_uses_context ob = true -> exists l, rep (oc_buf c) (oc_top c) l) ->
    shok sh -> exists sh', ob_pre ob o c sh = Ok sh' /\ shok sh';
  ook_post : forall o c sh, oc_msg c = msg -> shok sh -> exists sh', ob_post ob o c sh = Ok sh' /\ shok sh';
}.

Record lrel (ob : observer (SH:=SH)) (l : lst) (s : mst) (f : frame) : Prop := mkLrel {
  lr_state : l_state l = kRunning;
  lr_pc : l_pc l = Some (f_pc f);
  lr_gas : l_gas l = f_gas f;
  lr_size : l_size l = zlen (f_stack f);
  lr_rel : rel shok (l_top l) s f;
  lr_ctx : ob_uses_context ob = true -> l_cgas l = l_gas l /\ l_ctop l = l_top l;
}.

(** the final local and context state for a halting or failing outcome; [s] is the state before
    the last iteration *)
Definition stop_post (out : outcome) (s : mst) (l' : lst) (s' : mst) : Prop :=
  match out with
  | Next f' => False
  | Halt h data f' =>
      l_state l' = halt_state h /\ l_pc l' = Some (f_pc f') /\ l_gas l' = f_gas f' /\
      (h = Stopped -> data = [] /\ m_ret s' = f_ret f') /\ (h <> Stopped -> m_ret s' = data) /\
      rel shok (l_top l') (set_ret (f_ret f') s') f'
  | Fail e f' =>
      l_state l' = fail_state e /\
      m_buf s' = m_buf s /\ m_mem s' = m_mem s /\ m_ret s' = m_ret s /\ m_ref s' = m_ref s /\
      m_w s' = f_world f' /\ f_refund f' = m_ref s /\ shok (m_sh s')
  end.

Lemma rel_set_sh top (s : mst) (f : frame) sh : rel shok top s f -> shok sh -> rel shok top (set_sh sh s) f.
Proof. intros [? ? ? ? ? ? ? ? ?] Hsh. split; assumption. Qed.

Lemma rel_mono (p q : SH -> Prop) top (s : mst) (f : frame) : (forall sh, p sh -> q sh) -> rel p top s f -> rel q top s f.
Proof. intros h [? ? ? ? ? ? ? ? ?]. split; auto. Qed.

Lemma exec_one_sim ob stepping l s f : obs_ok ob -> lrel ob l s f -> inv0 f ->
  exists out l' s', exec_one S E ob stepping l s = Ok (l', s') /\ iteration stepping f out /\
    (ob_uses_context ob = false -> l_ctop l' = l_ctop l) /\
    match out with
    | Next f' => lrel ob l' s' f' /\ 0 <= f_pc f' <= zlen code + 32
    | _ => stop_post out s l' s'
    end.
Proof.
  intros Hob [L1 L2 L3 L4 L5 L6] I. pose proof (inv0_pc _ I) as Hpc.
  unfold exec_one, fetch. rewrite L2. cbn [make_env e_code]. rewrite padded_at by exact Hpc.
  destruct (dispatch_entry _ (code_at_byte code (f_pc f) Hcode)) as (o & Eo & _). rewrite Eo.
  unfold deref_pc. cbn [rbind].
  destruct (ook_pre _ Hob o (mkOctx msg (l_cgas l) (l_ctop l) (m_buf s)) (m_sh s) eq_refl) as (sh1 & E1 & Hs1).
  { intros hu. cbn [oc_buf oc_top]. exists (f_stack f). destruct (L6 hu) as [_ ->]. apply (rel_stack _ _ _ _ L5). }
  { apply (rel_sh _ _ _ _ L5). }
  change (e_msg E) with msg in *.
  rewrite E1. cbn [rbind].
  destruct (run_op_sim stepping _ o (l_top l) f (set_sh sh1 s) eq_refl Eo (rel_set_sh _ _ _ _ L5 Hs1) I) as (out & Hit & HW).
  { intros w0 m0 _. apply Hmay. exact Hs1. }
  set (ok := match asks f with Some _ => after | None => shok end) in HW.
  assert (Hok : forall sh, ok sh -> shok sh) by (unfold ok; destruct (asks f); auto).
  rewrite L3, L4. unfold wp in HW. destruct (run_op S E stepping o (f_pc f) (f_gas f) (l_top l) (zlen (f_stack f)) (set_sh sh1 s)) as [[r s1]| |]; try contradiction.
  cbn [rbind]. rewrite (sok_strict _ _ _ _ _ _ Hsys). cbn [andb].
  set (cgas := if ob_uses_context ob then r_gas r else l_cgas l).
  set (ctop := if ob_uses_context ob then l_top l - i_delta (op_kinfo o) else l_ctop l).
  assert (Hsh1 : shok (m_sh s1)).
  { unfold run_post in HW. destruct out as [f'|h data f'|e f'].
    - destruct HW as (_ & _ & _ & HR & _). apply Hok, (rel_sh _ _ _ _ HR).
    - destruct HW as (_ & _ & _ & _ & _ & HR). apply Hok, (rel_sh _ _ _ _ HR).
    - apply Hok, HW. }
  destruct (ook_post _ Hob o (mkOctx msg cgas ctop (m_buf s1)) (m_sh s1) eq_refl Hsh1) as (sh2 & E2 & Hs2).
  rewrite E2. cbn [rbind].
  eexists out, _, _. split; [reflexivity|]. split; [exact Hit|]. split.
  { intros hu. cbn [l_ctop]. unfold ctop. rewrite hu. reflexivity. }
  unfold run_post in HW. destruct out as [f'|h data f'|e f'].
  - destruct HW as (H1 & H2 & H3 & H4 & H5). apply (rel_mono _ _ _ _ _ Hok) in H4. split; [|exact H5]. split; cbn [l_state l_pc l_gas l_size l_top l_cgas l_ctop].
    + exact H1.
    + exact H2.
    + exact H3.
    + pose proof (rel_stack _ _ _ _ H4) as Q1. pose proof (rel_stack _ _ _ _ L5) as Q2.
      apply rep_top in Q1. apply rep_top in Q2. lia.
    + apply rel_set_sh; assumption.
    + intros hu. unfold cgas, ctop. rewrite hu. auto.
  - destruct HW as (H1 & H2 & H3 & H4 & H5 & H6). apply (rel_mono _ _ _ _ _ Hok) in H6. unfold stop_post. cbn [l_state l_pc l_gas l_top].
    split; [exact H1|]. split; [exact H2|]. split; [exact H3|]. split; [exact H4|]. split; [exact H5|].
    change (set_ret (f_ret f') (set_sh sh2 s1)) with (set_sh sh2 (set_ret (f_ret f') s1)). apply rel_set_sh; assumption.
  - destruct HW as (H1 & H2 & H3 & H4 & H5 & H6 & H7 & H8). unfold stop_post. cbn [l_state set_sh m_buf m_mem m_ret m_ref m_w m_sh].
    auto 10.
Qed.

Lemma step_next_gas f f1 : step f = Next f1 -> 0 <= f_gas f.
Proof.
  unfold SpecEvm.step. destruct (instruction (code_at code (f_pc f))) as [i|] eqn:Ei.
  - pose proof (fee_nn _ _ (code_at_byte code (f_pc f) Hcode) Ei).
    destruct (negb _); [discriminate|]. destruct (_ && _); [discriminate|]. destruct (_ <? in_args i); [discriminate|].
    destruct (1024 <? _); [discriminate|]. unfold charge. destruct (Z.ltb_spec (f_gas f) (in_fee i)); [discriminate|]. lia.
  - destruct (f_gas f <? 0); discriminate.
Qed.

Lemma rel_active top (s : mst) (f : frame) : rel shok top s f -> 0 <= f_active f.
Proof. intros R. apply (mr_nonneg _ _ _ (rel_mem _ _ _ _ R)). Qed.

Lemma step_sane top (s : mst) f : 0 <= f_gas f -> rel shok top s f -> inv0 f -> good 1 f (step f).
Proof.
  intros G R I. apply step_good; [exact Hmsg|apply (sok_calls _ _ _ _ _ _ Hsys)|exact Hcode|]. unfold sane.
  split; [exact G|]. split; [exact (rel_active _ _ _ R)|]. split; [exact (rel_words _ _ _ _ R)|]. split.
  - intros a Ha. rewrite (mr_at _ _ _ (rel_mem _ _ _ _ R) a Ha). apply data_at_byte. apply (mr_bytes _ _ _ (rel_mem _ _ _ _ R)).
  - pose proof (inv0_mem _ I). lia.
Qed.

Lemma dec_trans a b f1 f2 (f3 : frame) : dec a f1 f2 -> dec b f2 f3 -> dec (a + b) f1 f3.
Proof. intros [? ? ? ?] [? ? ? ?]. split; lia. Qed.
Lemma dec_weaken a b f1 (f2 : frame) : b <= a -> dec a f1 f2 -> dec b f1 f2.
Proof. intros ? [? ? ? ?]. split; lia. Qed.

Lemma iteration_next stepping f f' (s s' : mst) t t' : iteration stepping f (Next f') ->
  rel shok t s f -> rel shok t' s' f' ->
  inv0 f -> 0 <= f_pc f' <= zlen code + 32 -> inv0 f' /\ dec 1 f f'.
Proof.
  intros Hit R R' I Hp.
  assert (D : dec 1 f f').
  { destruct (iteration_cases _ _ _ Hit) as [E1|(_ & f1 & E1 & E2 & E3)].
    - symmetry in E1. pose proof (step_next_gas _ _ E1) as G.
      pose proof (step_sane _ _ f G R I) as X. rewrite E1 in X. exact X.
    - pose proof (step_next_gas _ _ E1) as G.
      pose proof (step_sane _ _ f G R I) as X. rewrite E1 in X. cbn [good] in X.
      symmetry in E3. revert E3. unfold SpecEvm.step. rewrite E2.
      cbn [instruction in_since in_stateful in_args in_results in_fee]. unfold SpecEvm.exec.
      destruct (negb _); [discriminate|]. cbn [andb]. destruct (_ <? 0); [discriminate|]. destruct (1024 <? _); [discriminate|].
      unfold charge. destruct (Z.ltb_spec (f_gas f1) 1); [discriminate|]. intros E3. injection E3 as <-.
      destruct X as [X1 X2 X3 X4]. split; fld; lia. }
  split; [|exact D]. destruct D as [D1 D2 D3 D4]. destruct I as [I1 I2 I3 I4].
  pose proof (Gmem_nonneg _ (rel_active _ _ _ R')). split; lia.
Qed.

(** [out] is the outcome of running from [f] *)
Notation runs := (SpecEvm.runs HH call (s_keccak S) msg rev code vd).

Lemma iteration_runs_next stepping f f' out : iteration stepping f (Next f') -> runs f' out -> runs f out.
Proof.
  intros Hit HR. destruct (iteration_cases _ _ _ Hit) as [E1|(_ & f1 & E1 & _ & E2)].
  - eapply runs_step; [symmetry; exact E1|exact HR].
  - eapply runs_step; [exact E1|]. eapply runs_step; [symmetry; exact E2|exact HR].
Qed.
Lemma iteration_runs_stop stepping f out : iteration stepping f out -> (forall f', out <> Next f') -> runs f out.
Proof.
  intros Hit Hn.
  assert (X : forall g, out = step g -> runs g out).
  { intros g E1. destruct out as [f'|h d f'|e f'].
    - exfalso. apply (Hn f'). reflexivity.
    - apply runs_halt. symmetry. exact E1.
    - apply runs_fail. symmetry. exact E1. }
  destruct (iteration_cases _ _ _ Hit) as [E1|(_ & f1 & E1 & _ & E2)]; [apply X; exact E1|].
  eapply runs_step; [exact E1|]. apply X. exact E2.
Qed.

Notation run_for := (SpecEvm.run_for HH call (s_keccak S) msg rev code vd).
Definition final (o : outcome) : Prop := forall f', o <> Next f'.

Lemma run_for_mono k f out : run_for k f = out -> final out -> forall n, (k <= n)%nat -> run_for n f = out.
Proof.
  revert f. induction k; intros f Ek Hf n Hn; cbn [SpecEvm.run_for] in Ek; [exfalso; exact (Hf f (eq_sym Ek))|].
  destruct n; [lia|]. cbn [SpecEvm.run_for]. destruct (step f); try exact Ek. apply IHk; [exact Ek|exact Hf|lia].
Qed.
Lemma run_for_runs n : forall f out, run_for n f = out -> final out -> runs f out.
Proof.
  induction n; intros f out En Hf; cbn [SpecEvm.run_for] in En; [exfalso; exact (Hf f (eq_sym En))|].
  destruct (step f) as [f1|h d f1|e f1] eqn:E1.
  - eapply runs_step; [exact E1|]. apply IHn; assumption.
  - subst out. apply runs_halt. exact E1.
  - subst out. apply runs_fail. exact E1.
Qed.

(** one iteration of the loop is one or two instructions, each of which costs at least one unit of gas *)
Lemma iteration_count stepping f f' (s s' : mst) t t' : iteration stepping f (Next f') ->
  rel shok t s f -> rel shok t' s' f' -> inv0 f -> 
  exists k, (1 <= k)%nat /\ dec (Z.of_nat k) f f' /\ forall n, run_for (k + n) f = run_for n f'.
Proof.
  intros Hit R R' I. destruct (iteration_cases _ _ _ Hit) as [E1|(_ & f1 & E1 & E2 & E3)].
  - symmetry in E1. exists 1%nat. split; [lia|]. split; [|intros n; cbn [Nat.add SpecEvm.run_for]; rewrite E1; reflexivity].
    pose proof (step_next_gas _ _ E1) as G. pose proof (step_sane _ _ f G R I) as X. rewrite E1 in X. exact X.
  - exists 2%nat. split; [lia|]. split; [|intros n; cbn [Nat.add SpecEvm.run_for]; rewrite E1, <- E3; reflexivity].
    pose proof (step_next_gas _ _ E1) as G. pose proof (step_sane _ _ f G R I) as X. rewrite E1 in X. cbn [good] in X.
    symmetry in E3. revert E3. unfold SpecEvm.step. rewrite E2.
    cbn [instruction in_since in_stateful in_args in_results in_fee]. unfold SpecEvm.exec.
    destruct (negb _); [discriminate|]. cbn [andb]. destruct (_ <? 0); [discriminate|]. destruct (1024 <? _); [discriminate|].
    unfold charge. destruct (Z.ltb_spec (f_gas f1) 1); [discriminate|]. intros E3. injection E3 as <-.
    destruct X as [X1 X2 X3 X4]. split; fld; lia.
Qed.
Lemma iteration_count_stop stepping f out (s : mst) t : iteration stepping f out -> final out ->
  rel shok t s f -> inv0 f -> run_for (Datatypes.S (Z.to_nat (f_gas f))) f = out.
Proof.
  intros Hit Hn R I.
  assert (X : forall g k, out = step g -> run_for (Datatypes.S k) g = out).
  { intros g k E1. cbn [SpecEvm.run_for]. rewrite <- E1. destruct out as [f'|h d f'|e f']; [exfalso; apply (Hn f' eq_refl)|reflexivity..]. }
  destruct (iteration_cases _ _ _ Hit) as [E1|(_ & f1 & E1 & _ & E2)]; [apply X; exact E1|].
  pose proof (step_next_gas _ _ E1) as G. pose proof (step_sane _ _ f G R I) as Y. rewrite E1 in Y. destruct Y as [Y1 Y2 Y3 Y4].
  apply run_for_mono with (k := 2%nat); [|exact Hn|lia].
  change (match step f with Next f2 => run_for 1 f2 | o => o end = out). rewrite E1. apply X. exact E2.
Qed.

Lemma not_running_stop out s l' s' : stop_post out s l' s' -> is_running (l_state l') = false.
Proof.
  destruct out as [f'|h d f'|e f']; cbn [stop_post]; [contradiction| |]; intros (-> & _).
  - destruct h; reflexivity.
  - destruct e; reflexivity.
Qed.

(** what a complete run may do with gas and the refund counter *)
Definition end_good (f : frame) (out : outcome) : Prop :=
  match out with
  | Next _ => False
  | Halt _ data f' => dec 0 f f' /\ Forall is_byte data /\ zlen data < 2 ^ 63
  | Fail _ f' => Z.abs (f_refund f' - f_refund f) <= 199 * Z.max 0 (f_gas f)
  end.

Lemma end_good_step stepping f f' out : inv0 f -> dec 1 f f' -> iteration stepping f (Next f') -> end_good f' out -> end_good f out.
Proof.
  intros I [D1 D2 D3 D4] _. destruct out as [g|h d g|e g]; cbn [end_good]; [auto| |].
  - intros [[? ? ? ?] ?]. split; [split; lia|assumption].
  - lia.
Qed.
Lemma end_good_stop stepping f out top s l' s' : iteration stepping f out -> (forall f', out <> Next f') ->
  rel shok top s f -> inv0 f -> stop_post out s l' s' -> end_good f out.
Proof.
  intros Hit Hn R I HP. destruct out as [f'|h d f'|e f']; [exfalso; exact (Hn f' eq_refl)| |].
  - cbn [end_good].
    assert (Hg : 0 <= f_gas f -> dec 0 f f' /\ Forall is_byte d /\ zlen d < 2 ^ 63).
    { intros G. destruct (iteration_cases _ _ _ Hit) as [E1|(_ & f1 & E1 & E2 & E3)].
      - pose proof (step_sane _ _ f G R I) as X. rewrite <- E1 in X. destruct X as (X1 & X2 & X3). split; [exact X1|]. split; [exact X2|].
        pose proof (rel_active _ _ _ R) as Ha. destruct X1 as [Y1 Y2 Y3 Y4]. pose proof (inv0_mem _ I) as Hm.
        assert (Gmem (f_active f') < 2 ^ 54) as Hs by lia.
        pose proof (size_small (f_active f') ltac:(lia) Hs).
        change (2 ^ 37) with 137438953472 in *. change (2 ^ 63) with 9223372036854775808. lia.
      - exfalso. symmetry in E3. revert E3. unfold SpecEvm.step. rewrite E2.
        cbn [instruction in_since in_stateful in_args in_results in_fee]. unfold SpecEvm.exec.
        destruct (negb _); [discriminate|]. cbn [andb]. destruct (_ <? 0); [discriminate|]. destruct (1024 <? _); [discriminate|].
        unfold charge. destruct (Z.ltb_spec (f_gas f1) 1); [discriminate|]. intros E3. discriminate E3. }
    apply Hg. destruct (iteration_cases _ _ _ Hit) as [E1|(_ & f1 & E1 & _)]; [|exact (step_next_gas _ _ E1)].
    symmetry in E1. revert E1. unfold SpecEvm.step. destruct (instruction (code_at code (f_pc f))) as [i|] eqn:Ei.
    + pose proof (fee_nn _ _ (code_at_byte code (f_pc f) Hcode) Ei).
      destruct (negb _); [discriminate|]. destruct (_ && _); [discriminate|]. destruct (_ <? in_args i); [discriminate|].
      destruct (1024 <? _); [discriminate|]. unfold charge. destruct (Z.ltb_spec (f_gas f) (in_fee i)); [discriminate|]. lia.
    + destruct (f_gas f <? 0); discriminate.
  - cbn [stop_post] in HP. destruct HP as (_ & _ & _ & _ & _ & _ & E7 & _). cbn [end_good].
    pose proof (rel_ref _ _ _ _ R). lia.
Qed.

Lemma run_loop_sim ob : obs_ok ob -> forall fuel l s f, lrel ob l s f -> inv0 f -> (Z.to_nat (f_gas f) < fuel)%nat ->
  exists out l' s' s0 , run_loop S E ob fuel l s = Ok (l', s') /\ run_for (Datatypes.S (Z.to_nat (f_gas f))) f = out /\
    end_good f out /\ stop_post out s0 l' s'.
Proof.
  intros Hob. induction fuel as [|fuel IH]; intros l s f L I Hf; [lia|].
  cbn [run_loop]. rewrite (lr_state _ _ _ _ L). cbn [is_running].
  destruct (exec_one_sim ob false l s f Hob L I) as (out & l' & s' & E1 & Hit & _ & HP). rewrite E1. cbn [rbind].
  destruct out as [f'|h d f'|e f'].
  - destruct HP as [L' Hpc]. destruct (iteration_next _ _ _ _ _ _ _ Hit (lr_rel _ _ _ _ L) (lr_rel _ _ _ _ L') I Hpc) as [I' D].
    destruct (IH l' s' f' L' I') as (out & l2 & s2 & s0 & E2 & HR & HG & HP2).
    { pose proof (dec_gas _ _ _ D). lia. }
    exists out, l2, s2, s0. split; [exact E2|]. split.
    { destruct (iteration_count _ _ _ _ _ _ _ Hit (lr_rel _ _ _ _ L) (lr_rel _ _ _ _ L') I) as (k & Hk & [D1 D2 D3 D4] & Ek).
      pose proof (dec_gas _ _ _ D) as D5.
      rewrite <- HR, <- Ek. apply run_for_mono with (k := (k + Datatypes.S (Z.to_nat (f_gas f')))%nat); [reflexivity| |lia].
      rewrite Ek, HR. intros g ->. exact HG. }
    split; [|exact HP2].
    eapply end_good_step; eassumption.
  - exists (Halt h d f'), l', s', s. split.
    + pose proof (not_running_stop _ _ _ _ HP) as Hnr. destruct fuel; cbn [run_loop]; rewrite Hnr; reflexivity.
    + split; [eapply iteration_count_stop; [exact Hit|discriminate|exact (lr_rel _ _ _ _ L)|exact I]|]. split; [|exact HP].
      eapply end_good_stop; [exact Hit|discriminate|exact (lr_rel _ _ _ _ L)|exact I|exact HP].
  - exists (Fail e f'), l', s', s. split.
    + pose proof (not_running_stop _ _ _ _ HP) as Hnr. destruct fuel; cbn [run_loop]; rewrite Hnr; reflexivity.
    + split; [eapply iteration_count_stop; [exact Hit|discriminate|exact (lr_rel _ _ _ _ L)|exact I]|]. split; [|exact HP].
      eapply end_good_stop; [exact Hit|discriminate|exact (lr_rel _ _ _ _ L)|exact I|exact HP].
Qed.

(** ** Interpret *)
(** what Interpret reports about an outcome *)
Definition reports (out : outcome) (r : iresult) (w' : W) : Prop :=
  match out with
  | Next _ => False
  | Halt h data f' => ir_state r = halt_state h /\ ir_gas r = f_gas f' /\ ir_refund r = f_refund f' /\
      ir_output r = data /\ w' = f_world f'
  | Fail e f' => ir_state r = fail_state e /\ ir_gas r = 0 /\ ir_refund r = f_refund f' /\ ir_output r = [] /\ w' = f_world f'
  end.

Lemma mem_rel_empty : mem_rel [] (fun _ => 0) 0.
Proof.
  split; try reflexivity; [apply Forall_nil|]. intros i Hi. unfold data_at.
  destruct (_ && _); [destruct (Z.to_nat i); reflexivity|reflexivity].
Qed.

Lemma is_success_halt h : is_success (halt_state h) = true. Proof. destruct h; reflexivity. Qed.
Lemma is_success_fail e : is_success (fail_state e) = false /\ is_running (fail_state e) = false. Proof. destruct e; split; reflexivity. Qed.
Lemma keep_fail e : match fail_state e with kReturn | kRevert | kRunning => true | _ => false end = false. Proof. destruct e; reflexivity. Qed.

Theorem interpret_sim ob fuel buf w sh : obs_ok ob -> zlen buf = 1024 -> shok sh -> (Z.to_nat (msg_gas msg) < fuel)%nat ->
  exists out r w' sh', interpret S E ob fuel buf w sh = Ok (r, w', sh') /\ shok sh' /\
    run_for (Datatypes.S (Z.to_nat (msg_gas msg))) (initial msg w) = out /\ end_good (initial msg w) out /\ reports out r w'.
Proof.
  intros Hob Hbuf Hsh Hf. unfold interpret. change (e_msg E) with msg.
  destruct (ook_pre_run _ Hob sh Hsh) as (sh1 & E1 & Hs1). rewrite E1. cbn [rbind].
  edestruct (run_loop_sim ob Hob fuel (mkL kRunning (Some 0) (msg_gas msg) kStackSize 0 (msg_gas msg) kStackSize)
    (mkMst buf [] [] 0 w sh1) (initial msg w)) as (out & l' & s' & s0 & E2 & HR & HG & HP).
  - split; cbn; try reflexivity.
    + split; cbn; auto; try (constructor; fail); try lia.
      * split; [assumption|unfold kStackSize; lia|reflexivity|]. intros i v Hv. rewrite znth_nil in Hv. discriminate.
      * apply mem_rel_empty.
    + auto.
  - pose proof (mok_gas _ Hmsg). pose proof (zlen_nonneg code).
    split; cbn [initial f_gas f_active f_refund f_pc]; try lia; change (Gmem 0) with 0; lia.
  - exact Hf.
  - rewrite E2. cbn [rbind]. unfold epilogue.
    destruct out as [f'|h data f'|e f']; cbn [stop_post] in HP; [contradiction| |].
    + destruct HP as (P1 & P2 & P3 & P4 & P5 & P6).
      assert (Hsh' : shok (m_sh s')) by apply (rel_sh _ _ _ _ P6).
      destruct (ook_post_run _ Hob (m_sh s') Hsh') as (sh2 & E3 & Hs2).
      exists (Halt h data f'). rewrite P1.
      assert (Hsm : forall b : bool, m_sh (if b then s' else set_ret [] s') = m_sh s') by (intros []; reflexivity).
      rewrite Hsm, E3. cbn [rbind]. eexists _, _, _. split; [reflexivity|]. split; [exact Hs2|]. split; [exact HR|]. split; [exact HG|].
      cbn [reports ir_state ir_gas ir_refund ir_output c_state c_gas]. rewrite is_success_halt.
      pose proof (rel_ref _ _ _ _ P6) as Q1. pose proof (rel_w _ _ _ _ P6) as Q2. cbn [set_ret m_ref m_w] in Q1, Q2.
      destruct h; cbn [halt_state m_ref m_ret m_w set_ret]; repeat split; try assumption.
      * symmetry. apply P4. reflexivity.
      * apply P5. discriminate.
      * apply P5. discriminate.
    + destruct HP as (P1 & P2 & P3 & P4 & P5 & P6 & P7 & P8).
      destruct (ook_post_run _ Hob (m_sh s') P8) as (sh2 & E3 & Hs2).
      exists (Fail e f'). rewrite P1. rewrite keep_fail. cbn [set_ret m_sh].
      rewrite E3. cbn [rbind]. eexists _, _, _. split; [reflexivity|]. split; [exact Hs2|]. split; [exact HR|]. split; [exact HG|].
      cbn [reports ir_state ir_gas ir_refund ir_output c_state c_gas m_ref m_ret m_w set_ret].
      destruct (is_success_fail e) as [-> _]. repeat split; congruence.
Qed.

(** ** Stepping *)
Notation steps := (SpecEvm.steps HH call (s_keccak S) msg rev code vd).
Notation NOB := (no_observer (SH:=SH)).

Lemma no_observer_ok : obs_ok NOB.
Proof. split; intros; cbn; eexists; split; try reflexivity; assumption. Qed.

Lemma step_loop_sim : forall n l s f, lrel NOB l s f -> inv0 f ->
  exists l' s', step_loop S E NOB n l s = Ok (l', s') /\ l_ctop l' = l_ctop l /\
    ((exists f', steps n f f' /\ lrel NOB l' s' f' /\ inv0 f' /\ (0 < n -> dec 1 f f')%nat) \/
     (exists k f1 s1 t1, (k < n)%nat /\ steps k f f1 /\ rel shok t1 s1 f1 /\ stop_post (step f1) s1 l' s' /\ end_good f (step f1) /\
        (k = 0%nat -> s1 = s) /\ inv0 f1)).
Proof.
  induction n as [|n IH]; intros l s f L I; cbn [step_loop].
  - exists l, s. split; [reflexivity|]. split; [reflexivity|]. left. exists f. split; [constructor|]. split; [exact L|]. split; [exact I|]. lia.
  - rewrite (lr_state _ _ _ _ L). cbn [is_running].
    destruct (exec_one_sim NOB true l s f no_observer_ok L I) as (out & l' & s' & E1 & Hit & Hct & HP). rewrite E1. cbn [rbind].
    assert (Eo : step f = out) by (symmetry; exact Hit).
    destruct out as [f'|h d f'|e f'].
    + destruct HP as [L' Hpc]. destruct (iteration_next _ _ _ _ _ _ _ Hit (lr_rel _ _ _ _ L) (lr_rel _ _ _ _ L') I Hpc) as [I' D].
      destruct (IH l' s' f' L' I') as (l2 & s2 & E2 & Hc2 & HC). exists l2, s2. split; [exact E2|]. split; [rewrite Hc2; apply Hct; reflexivity|].
      destruct HC as [(f2 & A1 & A2 & A3 & A4)|(k & f1 & s1 & t1 & A1 & A2 & A3 & A4 & A5 & A6 & A7)].
      * left. exists f2. split; [econstructor; eassumption|]. split; [exact A2|]. split; [exact A3|]. intros _.
        destruct n; [inversion A1; subst; exact D|]. apply (dec_weaken (1 + 1)); [lia|]. eapply dec_trans; [exact D|]. apply A4. lia.
      * right. exists (Datatypes.S k), f1, s1, t1. split; [lia|]. split; [econstructor; eassumption|]. split; [exact A3|]. split; [exact A4|].
        split; [eapply end_good_step; eassumption|]. split; [discriminate|exact A7].
    + pose proof (not_running_stop _ _ _ _ HP) as Hnr.
      exists l', s'. split; [destruct n; cbn [step_loop]; rewrite ?Hnr; reflexivity|]. split; [apply Hct; reflexivity|]. right.
      exists 0%nat, f, s, (l_top l). split; [lia|]. split; [constructor|]. split; [exact (lr_rel _ _ _ _ L)|]. rewrite Eo. split; [exact HP|].
      split; [|split; [auto|exact I]]. eapply end_good_stop; [exact Hit|discriminate|exact (lr_rel _ _ _ _ L)|exact I|exact HP].
    + pose proof (not_running_stop _ _ _ _ HP) as Hnr.
      exists l', s'. split; [destruct n; cbn [step_loop]; rewrite ?Hnr; reflexivity|]. split; [apply Hct; reflexivity|]. right.
      exists 0%nat, f, s, (l_top l). split; [lia|]. split; [constructor|]. split; [exact (lr_rel _ _ _ _ L)|]. rewrite Eo. split; [exact HP|].
      split; [|split; [auto|exact I]]. eapply end_good_stop; [exact Hit|discriminate|exact (lr_rel _ _ _ _ L)|exact I|exact HP].
Qed.

(** the arguments of InterpretNSteps represent the frame [f] *)
Record args_frame (a : step_args) (w : W) (sh : SH) (f : frame) : Prop := mkArgsFrame {
  af_pc : sa_pc a = f_pc f;
  af_gas : msg_gas msg = f_gas f;
  af_rel : rel shok (sa_top a) (mkMst (sa_buf a) (sa_mem a) (sa_ret a) (sa_refunds a) w sh) f;
  af_inv : inv0 f;
}.

(** what InterpretNSteps reports about a stopping instruction executed in frame [f1];
    [s1] is the interpreter's state before that instruction *)
Definition step_reports (out : outcome) (top0 : Z) (s1 : mst) (c : ctx_out) (s' : mst) : Prop :=
  match out with
  | Next _ => False
  | Halt h data f' => c_state c = halt_state h /\ c_pc c = f_pc f' /\ c_gas c = f_gas f' /\ m_ret s' = data /\
      rel shok (c_top c) (set_ret (f_ret f') s') f'
  | Fail e f' => c_state c = fail_state e /\ c_gas c = 0 /\ m_ret s' = [] /\ c_top c = top0 /\ m_buf s' = m_buf s1 /\
      m_mem s' = m_mem s1 /\ m_ref s' = f_refund f' /\ m_ref s' = m_ref s1 /\ m_w s' = f_world f' /\ shok (m_sh s')
  end.

Theorem interpret_n_steps_sim a w sh f : sa_state a = kRunning -> args_frame a w sh f ->
  exists c s', interpret_n_steps S E a w sh = Ok (c, s') /\
    ((exists f', steps (Z.to_nat (sa_steps a)) f f' /\ c_state c = kRunning /\ c_pc c = f_pc f' /\ c_gas c = f_gas f' /\
        rel shok (c_top c) s' f' /\ inv0 f' /\ (0 < sa_steps a -> dec 1 f f')) \/
     (exists k f1 s1 t1, (k < Z.to_nat (sa_steps a))%nat /\ steps k f f1 /\ rel shok t1 s1 f1 /\
        step_reports (step f1) (sa_top a) s1 c s' /\ end_good f (step f1) /\
        (k = 0%nat -> s1 = mkMst (sa_buf a) (sa_mem a) (sa_ret a) (sa_refunds a) w sh) /\ inv0 f1)).
Proof.
  intros Hst [A1 A2 A3 A4]. unfold interpret_n_steps. change (e_msg E) with msg. rewrite Hst, A1, A2.
  set (s0 := mkMst (sa_buf a) (sa_mem a) (sa_ret a) (sa_refunds a) w sh) in *.
  edestruct (step_loop_sim (Z.to_nat (sa_steps a)) (mkL kRunning (Some (f_pc f)) (f_gas f) (sa_top a) (kStackSize - sa_top a) (f_gas f) (sa_top a)) s0 f)
    as (l' & s' & E1 & Hc & HC).
  { split; cbn [l_state l_pc l_gas l_size l_top l_cgas l_ctop]; [reflexivity..|  | exact A3 |discriminate].
    pose proof (rep_top _ _ _ (rel_stack _ _ _ _ A3)) as X. unfold kStackSize. lia. }
  { exact A4. }
  rewrite E1. cbn [rbind]. cbn [l_ctop] in Hc. unfold epilogue.
  destruct HC as [(f' & B1 & B2 & B3 & B4)|(k & f1 & s1 & t1 & B1 & B2 & B3 & B4 & B5 & B6 & B7)].
  - destruct B2 as [C1 C2 C3 C4 C5 C6]. rewrite C1. cbn [is_success is_running orb negb andb].
    eexists _, _. split; [reflexivity|]. left. exists f'. cbn [c_state c_pc c_gas c_top].
    split; [exact B1|]. split; [reflexivity|]. split; [rewrite C2; reflexivity|]. split; [exact C3|]. split; [exact C5|]. split; [exact B3|].
    intros. apply B4. lia.
  - eexists _, _. split; [reflexivity|]. right. exists k, f1, s1, t1. split; [exact B1|]. split; [exact B2|]. split; [exact B3|].
    split; [|split; [exact B5|split; [exact B6|exact B7]]].
    destruct (step f1) as [g|h data g|e g]; cbn [stop_post] in B4; [contradiction| |].
    + destruct B4 as (P1 & P2 & P3 & P4 & P5 & P6). cbn [step_reports c_state c_pc c_gas c_top]. rewrite P1, is_success_halt, P2. cbn [orb negb andb].
      split; [reflexivity|]. split; [reflexivity|]. split; [exact P3|].
      destruct h; cbn [halt_state m_ret set_ret].
      * split; [symmetry; apply P4; reflexivity|exact P6].
      * split; [apply P5; discriminate|exact P6].
      * split; [apply P5; discriminate|exact P6].
    + destruct B4 as (P1 & P2 & P3 & P4 & P5 & P6 & P7 & P8). cbn [step_reports c_state c_pc c_gas c_top].
      rewrite P1. destruct (is_success_fail e) as [-> ->]. rewrite keep_fail. cbn [orb negb andb set_ret m_ret m_buf m_mem m_ref m_w m_sh].
      repeat split; try assumption; congruence.
Qed.
End Sim.
