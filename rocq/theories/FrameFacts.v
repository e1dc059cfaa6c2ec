(** What single instructions of the reference can do: heights, program counters, return data, host effects, failures. *)
From Verif Require Import Base Host SpecEvm SpecCall SpecVm MemFacts JumpFacts SpecFacts SpecHost.
From Coq Require Import Lia ZArith List Bool.
Import ListNotations.

Definition is_asking (b : Z) : bool := existsb (Z.eqb b) asking.
Definition is_modifying (b : Z) : bool := existsb (Z.eqb b) modifying.
Definition of_checks (e : failure) : bool :=
  match e with StackUnderflow | StackOverflow | UndefinedInstruction | InvalidInstruction => true | _ => false end.

Section FrameFacts.
Context {W : Type}.
Variable H : host W.
Variable call : W -> message -> cresult * W.
Variable keccak : list Z -> Z.
Variable msg : message.
Variable rv : revision.
Variable code : list Z.
Variable vd : Z -> bool.
Notation frame := (frame W).
Notation outcome := (outcome W).
Notation exec := (SpecEvm.exec H call keccak msg rv code vd).

(** the messages sent by a running program *)
Record sent (b : Z) (m' : message) : Prop := mkSent {
  sent_depth : msg_depth m' = msg_depth msg + 1;
  sent_static : b <> 0xF0 -> b <> 0xF5 -> static msg = true -> static m' = true;
  sent_value : b <> 0xF0 -> b <> 0xF5 -> static msg = true -> msg_kind m' = K_CALL -> msg_value m' = 0;
  sent_kind : b <> 0xF0 -> b <> 0xF5 -> msg_kind m' <> K_CREATE /\ msg_kind m' <> K_CREATE2;
}.
Definition told (b : Z) (w w' : W) : Prop := exists w1, warms H w w1 /\ (w' = w1 \/ exists m', sent b m' /\ w' = snd (call w1 m')).

Definition effect (b args results : Z) (f : frame) (o : outcome) : Prop :=
  match o with
  | Next f' =>
    zlen (f_stack f') = zlen (f_stack f) - args + results /\
    (f_pc f' = f_pc f + 1 + push_len b \/ (In b [0x56; 0x57] /\ vd (f_pc f') = true)) /\
    (is_asking b = false -> f_ret f' = f_ret f) /\
    (is_asking b = false -> b <> 0x55 -> f_refund f' = f_refund f) /\
    (is_asking b = false -> is_modifying b = false -> warms H (f_world f) (f_world f')) /\
    (is_asking b = true -> told b (f_world f) (f_world f'))
  | Halt h out f' =>
    (b = 0x00 \/ b = 0xFF) /\ h = Stopped /\ out = [] /\ (b = 0x00 -> f_world f' = f_world f) /\ (b = 0x00 -> f_refund f' = f_refund f) \/
    (b = 0xF3 /\ h = Returned \/ b = 0xFD /\ h = Reverted) /\ f_world f' = f_world f /\ f_refund f' = f_refund f /\
      exists off n, out = read_bytes (f_mem f) off n
  | Fail e f' => of_checks e = false /\ (b <> 0x55 -> warms H (f_world f) (f_world f'))
  end.

Lemma account_warms (f : frame) a : exists c w1, account_cost H rv f a = (c, with_world w1 f) /\ warms H (f_world f) w1.
Proof.
  unfold account_cost. destruct (rev_ge rv Berlin).
  - pose proof (warm_account H (f_world f) (f_world f) a (warm_none _ _)) as X. destruct (h_access_account H (f_world f) a) as [st w1]. eauto.
  - exists 700, (f_world f). split; [destruct f; reflexivity|apply warm_none].
Qed.
Lemma slot_warms (f : frame) k : exists c w1, slot_cost H msg rv f k = (c, with_world w1 f) /\ warms H (f_world f) w1.
Proof.
  unfold slot_cost. destruct (rev_ge rv Berlin).
  - pose proof (warm_slot H (f_world f) (f_world f) (self msg) k (warm_none _ _)) as X. destruct (h_access_storage H (f_world f) (self msg) k) as [st w1]. eauto.
  - exists 800, (f_world f). split; [destruct f; reflexivity|apply warm_none].
Qed.

Ltac F := cbn [f_pc f_gas f_stack f_mem f_active f_ret f_refund f_world
  with_pc with_gas with_stack with_mem with_active with_ret add_refund with_world next yield touch] in *.
Lemma eff_charge b a r f0 f c k : (b <> 0x55 -> warms H (f_world f0) (f_world f)) -> effect b a r f0 (k (with_gas (f_gas f - c) f)) -> effect b a r f0 (charge c f k).
Proof. intros Hw Hk. unfold charge. destruct (f_gas f <? c); [|exact Hk]. split; [reflexivity|exact Hw]. Qed.
Lemma zcons_neq (x : Z) l : zlen (x :: l) <= 0 -> False. Proof. unfold zlen. cbn [length]. lia. Qed.
Ltac short := exfalso; unfold zlen in *; cbn [length] in *; lia.
Ltac st := match goal with |- context [f_stack ?f] => destruct f as [pc gs stk mf act rt rf w] end; F.
Ltac pop1 := match goal with |- context [match ?s with [] => _ | _ => _ end] => is_var s; destruct s; [short|] end.
Ltac wk := first [assumption|apply warm_none|intros; assumption|intros; apply warm_none].

Lemma eff_un b q f : push_len b = 0 -> is_asking b = false -> 1 <= zlen (f_stack f) -> effect b 1 1 f (un q f).
Proof. intros P A Ha. unfold un. st. repeat pop1. unfold effect, yield, next. F. rewrite P, !zlen_cons, A. repeat split; intros; try discriminate; try lia; try apply warm_none. all: try (left; lia). Qed.
Lemma eff_bin b q f : push_len b = 0 -> is_asking b = false -> 2 <= zlen (f_stack f) -> effect b 2 1 f (bin q f).
Proof. intros P A Ha. unfold bin. st. repeat pop1. unfold effect, yield, next. F. rewrite P, !zlen_cons, A. repeat split; intros; try discriminate; try lia; try apply warm_none. all: try (left; lia). Qed.
Lemma eff_tern b q f : push_len b = 0 -> is_asking b = false -> 3 <= zlen (f_stack f) -> effect b 3 1 f (tern q f).
Proof. intros P A Ha. unfold tern. st. repeat pop1. unfold effect, yield, next. F. rewrite P, !zlen_cons, A. repeat split; intros; try discriminate; try lia; try apply warm_none. all: try (left; lia). Qed.
Lemma eff_push b v f : push_len b = 0 -> is_asking b = false -> effect b 0 1 f (push v f).
Proof. intros P A. unfold push. unfold effect, yield, next. F. rewrite P, !zlen_cons, A. repeat split; intros; try discriminate; try lia; try apply warm_none. all: try (left; lia). Qed.

(** the continuation of an instruction whose world is [w1] *)
Lemma eff_yield b a r (f f' : frame) s : push_len b = 0 -> is_asking b = false -> zlen s = zlen (f_stack f) - a + r -> f_pc f' = f_pc f -> f_ret f' = f_ret f ->
  (b <> 0x55 -> f_refund f' = f_refund f) -> (is_modifying b = false -> warms H (f_world f) (f_world f')) -> effect b a r f (yield s f').
Proof. intros P A Hz Hp Hr Hf Hw. unfold effect, yield, next. F. rewrite P, A, Hz, Hp, Hr. repeat split; intros; try discriminate; auto. all: try (left; lia). Qed.
Lemma eff_next b (f : frame) : push_len b = 0 -> is_asking b = false -> effect b 0 0 f (next f).
Proof. intros P A. unfold effect, next. F. rewrite P, A. repeat split; intros; try discriminate; try lia; try apply warm_none. all: try (left; lia). Qed.
Lemma eff_bad b a r f : zlen (f_stack f) < a -> a <= zlen (f_stack f) -> effect b a r f (bad f). Proof. lia. Qed.

Ltac fin := apply eff_yield; F; rewrite ?zlen_cons; intros; try reflexivity; try lia; try apply warm_none; try assumption; try discriminate.
Ltac dyn := apply eff_charge; [intros; apply warm_none|]; F.
Lemma eff_exp b f : push_len b = 0 -> is_asking b = false -> 2 <= zlen (f_stack f) -> effect b 2 1 f (i_exp f).
Proof. intros P A Ha. unfold i_exp. st. repeat pop1. dyn. fin. Qed.
Lemma eff_sha3 b f : push_len b = 0 -> is_asking b = false -> 2 <= zlen (f_stack f) -> effect b 2 1 f (i_sha3 keccak f).
Proof. intros P A Ha. unfold i_sha3. st. repeat pop1. dyn. fin. Qed.
Lemma eff_mload b f : push_len b = 0 -> is_asking b = false -> 1 <= zlen (f_stack f) -> effect b 1 1 f (i_mload f).
Proof. intros P A Ha. unfold i_mload. st. repeat pop1. dyn. fin. Qed.
Lemma eff_mstore b f : push_len b = 0 -> is_asking b = false -> 2 <= zlen (f_stack f) -> effect b 2 0 f (i_mstore f).
Proof. intros P A Ha. unfold i_mstore. st. repeat pop1. dyn. fin. Qed.
Lemma eff_mstore8 b f : push_len b = 0 -> is_asking b = false -> 2 <= zlen (f_stack f) -> effect b 2 0 f (i_mstore8 f).
Proof. intros P A Ha. unfold i_mstore8. st. repeat pop1. dyn. fin. Qed.
Lemma eff_mcopy b f : push_len b = 0 -> is_asking b = false -> 3 <= zlen (f_stack f) -> effect b 3 0 f (i_mcopy f).
Proof. intros P A Ha. unfold i_mcopy. st. repeat pop1. dyn. fin. Qed.
Lemma eff_copy b d f : push_len b = 0 -> is_asking b = false -> 3 <= zlen (f_stack f) -> effect b 3 0 f (i_copy d f).
Proof. intros P A Ha. unfold i_copy. st. repeat pop1. dyn. fin. Qed.
Lemma eff_returndatacopy b f : push_len b = 0 -> is_asking b = false -> 3 <= zlen (f_stack f) -> effect b 3 0 f (i_returndatacopy f).
Proof. intros P A Ha. unfold i_returndatacopy. st. repeat pop1. dyn. destruct (_ <? _); [split; [reflexivity|intros; apply warm_none]|]. fin. Qed.
Lemma eff_account b q f : push_len b = 0 -> is_asking b = false -> 1 <= zlen (f_stack f) -> effect b 1 1 f (i_account H rv q f).
Proof.
  intros P A Ha. unfold i_account. destruct (f_stack f) as [|x s] eqn:Es; [short|]. destruct (account_warms f (addr_of x)) as (c & w1 & -> & Hw).
  apply eff_charge; [intros _; exact Hw|]. F. apply eff_yield; F; rewrite ?Es, ?zlen_cons; intros; try reflexivity; try lia; assumption.
Qed.
Lemma eff_sload b f : push_len b = 0 -> is_asking b = false -> 1 <= zlen (f_stack f) -> effect b 1 1 f (i_sload H msg rv f).
Proof.
  intros P A Ha. unfold i_sload. destruct (f_stack f) as [|x s] eqn:Es; [short|]. destruct (slot_warms f x) as (c & w1 & -> & Hw).
  apply eff_charge; [intros _; exact Hw|]. F. apply eff_yield; F; rewrite ?Es, ?zlen_cons; intros; try reflexivity; try lia; assumption.
Qed.
Lemma eff_extcodecopy b f : push_len b = 0 -> is_asking b = false -> 4 <= zlen (f_stack f) -> effect b 4 0 f (i_extcodecopy H rv f).
Proof.
  intros P A Ha. unfold i_extcodecopy. destruct (f_stack f) as [|x [|y [|z [|n s]]]] eqn:Es; try short. dyn.
  set (f1 := with_gas (f_gas f - mem_fee f y n) f).
  destruct (account_warms f1 (addr_of x)) as (c & w1 & E & Hw). match goal with |- effect _ _ _ _ (let '(c, f2) := ?t in _) => change t with (account_cost H rv f1 (addr_of x)) end. rewrite E.
  apply eff_charge; [intros _; exact Hw|]. F. apply eff_yield; unfold f1; F; rewrite ?Es, ?zlen_cons; intros; try reflexivity; try lia; try assumption; exact Hw.
Qed.
Lemma eff_sstore f : 2 <= zlen (f_stack f) -> effect 0x55 2 0 f (i_sstore H msg rv f).
Proof.
  intros Ha. unfold i_sstore. destruct (f_stack f) as [|k [|x s]] eqn:Es; try short.
  destruct (f_gas f <=? 2300); [split; [reflexivity|intros; apply warm_none]|].
  assert (exists cold w1, (if rev_ge rv Berlin then let '(st, w) := h_access_storage H (f_world f) (self msg) k in (match st with COLD => true | WARM => false end, with_world w f) else (true, f)) = (cold, with_world w1 f))
    as (cold & w1 & ->).
  { destruct (rev_ge rv Berlin); [destruct (h_access_storage _ _ _ _); eauto|]. exists true, (f_world f). destruct f; reflexivity. }
  cbv beta iota zeta. destruct (h_set_storage H _ _ k x) as [stt w2]. apply eff_charge; [intros n; exfalso; apply n; reflexivity|].
  apply eff_yield; F; rewrite ?Es, ?zlen_cons; intros; try reflexivity; try lia; try discriminate.
Qed.
Lemma eff_tstore f : 2 <= zlen (f_stack f) -> effect 0x5D 2 0 f (i_tstore H msg f).
Proof. intros Ha. unfold i_tstore. st. repeat pop1. fin. Qed.
Lemma eff_jump f : 1 <= zlen (f_stack f) -> effect 0x56 1 0 f (i_jump vd f).
Proof.
  intros Ha. unfold i_jump. st. repeat pop1. destruct (vd z) eqn:E; [|split; [reflexivity|intros; apply warm_none]].
  unfold effect. F. rewrite zlen_cons. repeat split; intros; try discriminate; try lia; try apply warm_none. all: right; split; [cbn; tauto|exact E].
Qed.
Lemma eff_jumpi f : 2 <= zlen (f_stack f) -> effect 0x57 2 0 f (i_jumpi vd f).
Proof.
  intros Ha. unfold i_jumpi. st. repeat pop1. destruct (z0 =? 0); [fin|]. destruct (vd z) eqn:E; [|split; [reflexivity|intros; apply warm_none]].
  unfold effect. F. rewrite !zlen_cons. repeat split; intros; try discriminate; try lia; try apply warm_none. all: right; split; [cbn; tauto|exact E].
Qed.
Lemma eff_pushn b n f : push_len b = n -> is_asking b = false -> effect b 0 1 f (i_push code n f).
Proof. intros P A. unfold i_push, effect. F. rewrite P, A, zlen_cons. repeat split; intros; try discriminate; try lia; try apply warm_none. all: try (left; lia). Qed.
Lemma eff_dup b n f : push_len b = 0 -> is_asking b = false -> 1 <= n <= zlen (f_stack f) -> effect b n (n + 1) f (i_dup n f).
Proof.
  intros P A Hn. unfold i_dup. destruct (nth_error (f_stack f) (Z.to_nat (n - 1))) as [x|] eqn:E.
  - unfold push. apply eff_yield; F; rewrite ?zlen_cons; intros; try reflexivity; try assumption; try lia; apply warm_none.
  - apply nth_error_None in E. unfold zlen in *. lia.
Qed.
Lemma eff_swap b n f : push_len b = 0 -> is_asking b = false -> 1 <= n -> n + 1 <= zlen (f_stack f) -> effect b (n + 1) (n + 1) f (i_swap n f).
Proof.
  intros P A Hn Hz. unfold i_swap. destruct (f_stack f) as [|a s] eqn:Es; [unfold zlen in *; cbn in *; lia|].
  rewrite zlen_cons in Hz. destruct (nth_error s (Z.to_nat (n - 1))) as [x|] eqn:E.
  - apply eff_yield; F; rewrite ?Es, ?zlen_cons; intros; try reflexivity; try assumption; try apply warm_none.
    rewrite zlen_app, zlen_cons. unfold zlen in *. rewrite firstn_length, skipn_length. lia.
  - apply nth_error_None in E. unfold zlen in *. lia.
Qed.
Lemma eff_log b n f : push_len b = 0 -> is_asking b = false -> is_modifying b = true -> 0 <= n -> n + 2 <= zlen (f_stack f) -> effect b (n + 2) 0 f (i_log H msg n f).
Proof.
  intros P A Md Hn Hz. unfold i_log. destruct (f_stack f) as [|x [|y s]] eqn:Es; try (unfold zlen in *; cbn [length] in *; lia).
  dyn. apply eff_yield; F; rewrite ?Es, ?zlen_cons; intros; try reflexivity; try assumption; [|rewrite Md in *; discriminate].
  rewrite !zlen_cons in Hz. unfold zlen in *. rewrite skipn_length. lia.
Qed.
Lemma eff_return b h f : b = 0xF3 /\ h = Returned \/ b = 0xFD /\ h = Reverted -> 2 <= zlen (f_stack f) -> effect b 2 0 f (i_return h f).
Proof.
  intros Hb Ha. unfold i_return. st. repeat pop1. dyn. right. F. split; [exact Hb|]. split; [reflexivity|]. split; [reflexivity|]. eauto.
Qed.
Lemma eff_selfdestruct f : 1 <= zlen (f_stack f) -> effect 0xFF 1 0 f (i_selfdestruct H msg rv f).
Proof.
  intros Ha. unfold i_selfdestruct. destruct (f_stack f) as [|a s] eqn:Es; try short. cbv zeta.
  assert (exists cold w1, (if rev_ge rv Berlin then let '(st, w) := h_access_account H (f_world f) (addr_of a) in (match st with COLD => true | WARM => false end, with_world w f) else (false, f)) = (cold, with_world w1 f) /\ warms H (f_world f) w1)
    as (cold & w1 & -> & Hw).
  { destruct (rev_ge rv Berlin).
    - pose proof (warm_account H (f_world f) (f_world f) (addr_of a) (warm_none _ _)) as X. destruct (h_access_account _ _ _); eauto.
    - exists false, (f_world f). split; [destruct f; reflexivity|apply warm_none]. }
  apply eff_charge; [intros _; exact Hw|]. destruct (h_selfdestruct _ _ _ _) as [fs w2]. left. repeat split; try (right; reflexivity); intros X; discriminate X.
Qed.

Lemma eff_create two f : (if two : bool then 4 else 3) <= zlen (f_stack f) ->
  effect (if two then 0xF5 else 0xF0) (if two then 4 else 3) 1 f (i_create H call msg rv two f).
Proof.
  intros Ha. rewrite i_create_eq. set (b := if two then 0xF5 else 0xF0).
  assert (X : forall v off n salt s, zlen s = zlen (f_stack f) - (if two then 4 else 3) -> effect b (if two then 4 else 3) 1 f (create_go H call msg rv two f v off n salt s)).
  { intros v off n salt s Hs. unfold create_go. destruct (1024 <? msg_depth msg); [split; [reflexivity|intros; apply warm_none]|].
    dyn. destruct (_ && _); [split; [reflexivity|intros; apply warm_none]|]. dyn.
    assert (Hpl : push_len b = 0) by (unfold b; destruct two; reflexivity). assert (Hask : is_asking b = true) by (unfold b; destruct two; reflexivity).
    destruct (h_get_balance H _ _ <? v).
    - unfold effect, yield, next. F. rewrite Hpl, Hask, zlen_cons. repeat split; intros; try discriminate; try lia. exists (f_world f). split; [apply warm_none|left; reflexivity].
    - match goal with |- context [call ?ww ?mm] => assert (Hm : sent b mm); [|destruct (call ww mm) as [r w'] eqn:Ec] end.
      { split; [reflexivity|..]; intros N1 N2; exfalso; unfold b in *; destruct two; auto. }
      assert (Ht : told b (f_world f) w').
      { eexists. split; [apply warm_none|]. right. eexists. split; [exact Hm|]. rewrite Ec. reflexivity. }
      destruct (cr_status r); unfold effect, yield, next; F; rewrite Hpl, Hask, zlen_cons; repeat split; intros; try discriminate; try lia; exact Ht. }
  destruct two; destruct (f_stack f) as [|x1 [|x2 [|x3 [|x4 s]]]]; try short; apply X; rewrite ?zlen_cons; lia.
Qed.
Definition call_b (k : call_op) : Z := match k with OpCall => 0xF1 | OpCallCode => 0xF2 | OpDelegateCall => 0xF4 | OpStaticCall => 0xFA end.
Definition call_n (k : call_op) : Z := match k with OpCall | OpCallCode => 7 | _ => 6 end.
Lemma eff_call k f : call_n k <= zlen (f_stack f) -> effect (call_b k) (call_n k) 1 f (i_call H call msg rv k f).
Proof.
  intros Ha. rewrite i_call_eq.
  assert (X : forall greq a v ioff isz ooff osz s, (k = OpStaticCall -> v = 0) -> zlen s = zlen (f_stack f) - call_n k -> effect (call_b k) (call_n k) 1 f (call_go H call msg rv k f greq a v ioff isz ooff osz s)).
  { intros greq a v ioff isz ooff osz s Hv0 Hs. unfold call_go. cbv zeta. destruct (1024 <? msg_depth msg); [split; [reflexivity|intros; apply warm_none]|].
    dyn.
    assert (Hpl : push_len (call_b k) = 0) by (destruct k; reflexivity). assert (Hask : is_asking (call_b k) = true) by (destruct k; reflexivity).
    destruct (match k with OpCall => negb (v =? 0) && static msg | _ => false end) eqn:Hst; [split; [reflexivity|intros; apply warm_none]|].
    match goal with |- effect _ _ _ _ (let '(c, f2) := account_cost H rv ?ff ?aa in _) => destruct (account_warms ff aa) as (c & w1 & -> & Hw) end. F.
    apply eff_charge; [intros _; exact Hw|]. F.
    match goal with |- context [if negb (v =? 0) && ?q then _ else _] => destruct (negb (v =? 0) && q) end.
    - unfold effect, yield, next. F. rewrite Hpl, Hask, zlen_cons. repeat split; intros; try discriminate; try lia. exists w1. split; [exact Hw|left; reflexivity].
    - match goal with |- context [call ?ww ?mm] => assert (Hm : sent (call_b k) mm); [|destruct (call ww mm) as [r w'] eqn:Ec] end.
      { unfold call_message. split; cbn [msg_depth msg_kind msg_value].
        - reflexivity.
        - intros _ _ Hs'. unfold static in *. cbn [msg_flags]. destruct k; try exact Hs'. reflexivity.
        - intros _ _ Hs' Hk. rewrite Hs' in Hst. destruct k; try discriminate Hk; cbn in Hst.
          + rewrite andb_true_r in Hst. apply negb_false_iff, Z.eqb_eq in Hst. exact Hst.
          + apply Hv0. reflexivity.
        - intros _ _. destruct k; split; discriminate. }
      assert (Ht : told (call_b k) (f_world f) w').
      { exists w1. split; [exact Hw|]. right. eexists. split; [exact Hm|]. rewrite Ec. reflexivity. }
      unfold effect, yield, next. F. rewrite Hpl, Hask, zlen_cons. repeat split; intros; try discriminate; try lia. exact Ht. }
  destruct k; destruct (f_stack f) as [|x1 [|x2 [|x3 [|x4 [|x5 [|x6 [|x7 s]]]]]]]; cbn [call_n] in *; try short; apply X; rewrite ?zlen_cons; try lia; try discriminate; reflexivity.
Qed.

Lemma eff_swap' b n a f : a = n + 1 -> push_len b = 0 -> is_asking b = false -> 1 <= n -> a <= zlen (f_stack f) -> effect b a a f (i_swap n f).
Proof. intros ->. apply eff_swap. Qed.
Lemma eff_log' b n a f : a = n + 2 -> push_len b = 0 -> is_asking b = false -> is_modifying b = true -> 0 <= n -> a <= zlen (f_stack f) -> effect b a 0 f (i_log H msg n f).
Proof. intros ->. apply eff_log. Qed.

Theorem exec_effect b i f : is_byte b -> instruction b = Some i -> in_args i <= zlen (f_stack f) -> effect b (in_args i) (in_results i) f (exec b f).
Proof.
  intros Hb. revert b Hb i.
  apply (byte_cases (fun b => forall i, instruction b = Some i -> in_args i <= zlen (f_stack f) -> effect b (in_args i) (in_results i) f (exec b f))).
  cbn [seq map Z.of_nat Pos.of_succ_nat Pos.succ].
  repeat (apply Forall_cons; [
    let i := fresh in let E := fresh "Ei" in let Ha := fresh "Ha" in
    intros i E Ha; cbn in E; first [discriminate E | injection E as <-]; cbn [in_args in_results] in *;
    first [
        (refine (eff_un _ _ _ _ _ Ha); reflexivity) | (refine (eff_bin _ _ _ _ _ Ha); reflexivity) | (refine (eff_tern _ _ _ _ _ Ha); reflexivity) | (refine (eff_push _ _ _ _ _); reflexivity)
      | (refine (eff_exp _ _ _ _ Ha); reflexivity) | (refine (eff_sha3 _ _ _ _ Ha); reflexivity) | (refine (eff_account _ _ _ _ _ Ha); reflexivity) | (refine (eff_copy _ _ _ _ _ Ha); reflexivity)
      | (refine (eff_extcodecopy _ _ _ _ Ha); reflexivity) | (refine (eff_returndatacopy _ _ _ _ Ha); reflexivity) | (refine (eff_mload _ _ _ _ Ha); reflexivity) | (refine (eff_mstore _ _ _ _ Ha); reflexivity)
      | (refine (eff_mstore8 _ _ _ _ Ha); reflexivity) | (refine (eff_mcopy _ _ _ _ Ha); reflexivity) | (refine (eff_sload _ _ _ _ Ha); reflexivity) | exact (eff_sstore _ Ha)
      | exact (eff_tstore _ Ha) | exact (eff_jump _ Ha) | exact (eff_jumpi _ Ha) | (refine (eff_pushn _ _ _ _ _); reflexivity)
      | (refine (eff_dup _ _ _ _ _ (conj _ Ha)); first [reflexivity|vm_compute; discriminate]) | (refine (eff_swap' _ _ _ _ _ _ _ _ Ha); first [reflexivity|vm_compute; discriminate])
      | (refine (eff_log' _ _ _ _ _ _ _ _ _ Ha); first [reflexivity|vm_compute; discriminate])
      | exact (eff_return _ Returned _ (or_introl (conj eq_refl eq_refl)) Ha) | exact (eff_return _ Reverted _ (or_intror (conj eq_refl eq_refl)) Ha)
      | exact (eff_selfdestruct _ Ha) | exact (eff_create false _ Ha) | exact (eff_create true _ Ha)
      | exact (eff_call OpCall _ Ha) | exact (eff_call OpCallCode _ Ha) | exact (eff_call OpDelegateCall _ Ha) | exact (eff_call OpStaticCall _ Ha)
      | (refine (eff_next _ _ _ _); reflexivity)
      | idtac ]
  | ]); [..|apply Forall_nil].
  - left. repeat split; try (left; reflexivity); reflexivity.
  - change (effect 0x50 1 0 f (match f_stack f with _ :: s => yield s f | _ => bad f end)).
    destruct (f_stack f) as [|x s] eqn:Es; [short|]. apply eff_yield; rewrite ?Es, ?zlen_cons; intros; try reflexivity; try lia. apply warm_none.
Qed.
End FrameFacts.
