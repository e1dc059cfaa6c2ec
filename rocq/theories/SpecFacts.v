(** Facts about the reference semantics itself: every instruction pays for what it does. *)
From Verif Require Import Base Host SpecEvm SpecCall ArithFacts MemFacts.
From Coq Require Import Lia ZArith List Bool.

Section SpecFacts.
Context {W : Type}.
Variable H : host W.
Variable call : W -> message -> cresult * W.
Variable keccak : list Z -> Z.
Variable msg : message.
Variable rev : revision.
Variable code : list Z.
Variable vd : Z -> bool.
Hypothesis Hmsg : msg_ok msg.
Hypothesis Hcalls : calls_ok call (msg_depth msg).

Notation frame := (frame W).
Notation outcome := (outcome W).
Notation step := (step H call keccak msg rev code vd).
Notation exec := (exec H call keccak msg rev code vd).

(** [f'] is reached from [f] by spending at least [lo] gas; memory growth is paid from the gas;
    the refund counter moves by at most 199 per unit of gas spent. *)
Record dec (lo : Z) (f f' : frame) : Prop := mkDec {
  dec_gas : 0 <= f_gas f' <= f_gas f - lo;
  dec_active : f_active f <= f_active f';
  dec_mem : f_gas f' + Gmem (f_active f') <= f_gas f + Gmem (f_active f);
  dec_ref : Z.abs (f_refund f' - f_refund f) <= 199 * (f_gas f - f_gas f');
}.

Definition good (lo : Z) (f : frame) (o : outcome) : Prop :=
  match o with
  | Next f' => dec lo f f'
  | Halt _ out f' => dec 0 f f' /\ Forall is_byte out /\ zlen out <= Z.max 0 (f_active f')
  | Fail _ f' => f_refund f' = f_refund f /\ f_active f' = f_active f
  end.

Lemma dec_refl f : 0 <= f_gas f -> dec 0 f f.
Proof. intros. split; lia. Qed.

Ltac F := cbn [f_pc f_gas f_stack f_mem f_active f_ret f_refund f_world
  with_pc with_gas with_stack with_mem with_active with_ret add_refund with_world next yield touch] in *.
Ltac dd := split; F; lia.
Ltac gstart := intros Hg Ha Hw; match goal with f : SpecEvm.frame W |- _ => destruct f as [pc g stk mf act rt rf w] end; F.

Lemma good_charge lo c f0 f k : f_refund f0 = f_refund f -> f_active f0 = f_active f ->
  (c <= f_gas f -> good lo f0 (k (with_gas (f_gas f - c) f))) -> good lo f0 (charge c f k).
Proof. intros E1 E2 Hk. unfold charge. destruct (Z.ltb_spec (f_gas f) c); [cbn; auto|]. apply Hk. lia. Qed.

Definition sane (f : frame) : Prop := 0 <= f_gas f /\ 0 <= f_active f /\ Forall is_word (f_stack f) /\
  (forall a, 0 <= a -> is_byte (f_mem f a)) /\ f_gas f + Gmem (f_active f) < 2 ^ 54.

Ltac go := intros f (Hg & Ha & Hw & Hmb & Hlim); destruct f as [pc g stk mf act rt rf w]; F.
Ltac bads := try (cbn; split; reflexivity).
Ltac ws := repeat match goal with h : Forall is_word (_ :: _) |- _ => let h1 := fresh in let h2 := fresh in
   pose proof (Forall_inv h) as h1; pose proof (Forall_inv_tail h) as h2; clear h; unfold is_word in h1 end.

Lemma good_un q f : 0 <= f_gas f -> good 0 f (un q f).
Proof. destruct f as [pc g stk mf act rt rf w]. F. intros. unfold un. F. destruct stk; bads. dd. Qed.
Lemma good_bin q f : 0 <= f_gas f -> good 0 f (bin q f).
Proof. destruct f as [pc g stk mf act rt rf w]. F. intros. unfold bin. F. destruct stk as [|a [|b stk]]; bads. dd. Qed.
Lemma good_tern q f : 0 <= f_gas f -> good 0 f (tern q f).
Proof. destruct f as [pc g stk mf act rt rf w]. F. intros. unfold tern. F. destruct stk as [|a [|b [|c stk]]]; bads. dd. Qed.
Lemma good_push v f : 0 <= f_gas f -> good 0 f (push v f).
Proof. destruct f as [pc g stk mf act rt rf w]. F. intros. unfold push. F. dd. Qed.
Lemma good_exp f : sane f -> good 0 f (i_exp f).
Proof.
  revert f. go. unfold i_exp. F. destruct stk as [|a [|b stk]]; bads. ws.
  pose proof (byte_count_range b ltac:(unfold is_word; lia)).
  apply good_charge; [reflexivity..|]. intros. F. dd.
Qed.
Ltac memf off n := match goal with |- context [expand ?a off n] =>
  let h1 := fresh "Hex" in let h2 := fresh "Hfe" in
  pose proof (expand_ge a off n) as h1; pose proof (fee_nonneg a off n ltac:(lia)) as h2 end.
Lemma good_sha3 f : sane f -> good 0 f (i_sha3 keccak f).
Proof.
  revert f. go. unfold i_sha3. F. destruct stk as [|a [|b stk]]; bads. ws. pose proof (words_nonneg b ltac:(lia)).
  apply good_charge; [reflexivity..|]. intros Hc. unfold mem_fee in *. F. memf a b. dd.
Qed.
Lemma account_cost_eq f a : exists c w1, account_cost H rev f a = (c, with_world w1 f) /\ 100 <= c <= 2600.
Proof.
  unfold account_cost. destruct (rev_ge rev Berlin).
  - destruct (h_access_account H (f_world f) a) as [[|] w]; eexists _, _; split; try reflexivity; lia.
  - exists 700, (f_world f). split; [destruct f; reflexivity|lia].
Qed.
Lemma good_account q f : sane f -> good 1 f (i_account H rev q f).
Proof.
  revert f. go. unfold i_account. F. destruct stk as [|a stk]; bads.
  destruct (account_cost_eq (mkFrame pc g (a :: stk) mf act rt rf w) (addr_of a)) as (c & w1 & -> & Hc). F.
  apply good_charge; [reflexivity..|]. intros Hc'. F. dd.
Qed.
Lemma good_copy d f : sane f -> good 0 f (i_copy d f).
Proof.
  revert f. go. unfold i_copy. F. destruct stk as [|a [|b [|c stk]]]; bads. ws. pose proof (words_nonneg c ltac:(lia)).
  apply good_charge; [reflexivity..|]. intros Hc. unfold mem_fee in *. F. memf a c. dd.
Qed.
Lemma good_extcodecopy f : sane f -> good 1 f (i_extcodecopy H rev f).
Proof.
  revert f. go. unfold i_extcodecopy. F. destruct stk as [|a [|b [|c [|d stk]]]]; bads. ws. pose proof (words_nonneg d ltac:(lia)).
  apply good_charge; [reflexivity..|]. intros Hc. unfold mem_fee in *.
  match goal with |- context [account_cost H rev ?f ?a] => destruct (account_cost_eq f a) as (ac & w1 & -> & Hac) end. F.
  apply good_charge; [reflexivity..|]. intros Hc2. F. memf b d. dd.
Qed.
Lemma good_returndatacopy f : sane f -> good 0 f (i_returndatacopy f).
Proof.
  revert f. go. unfold i_returndatacopy. F. destruct stk as [|a [|b [|c stk]]]; bads. ws. pose proof (words_nonneg c ltac:(lia)).
  apply good_charge; [reflexivity..|]. intros Hc. unfold mem_fee in *. F. destruct (_ <? _); bads. memf a c. dd.
Qed.
Lemma good_mload f : sane f -> good 0 f (i_mload f).
Proof.
  revert f. go. unfold i_mload. F. destruct stk as [|a stk]; bads. ws.
  apply good_charge; [reflexivity..|]. intros Hc. unfold mem_fee in *. F. memf a 32. dd.
Qed.
Lemma good_mstore f : sane f -> good 0 f (i_mstore f).
Proof.
  revert f. go. unfold i_mstore. F. destruct stk as [|a [|b stk]]; bads. ws.
  apply good_charge; [reflexivity..|]. intros Hc. unfold mem_fee in *. F. memf a 32. dd.
Qed.
Lemma good_mstore8 f : sane f -> good 0 f (i_mstore8 f).
Proof.
  revert f. go. unfold i_mstore8. F. destruct stk as [|a [|b stk]]; bads. ws.
  apply good_charge; [reflexivity..|]. intros Hc. unfold mem_fee in *. F. memf a 1. dd.
Qed.
Lemma good_mcopy f : sane f -> good 0 f (i_mcopy f).
Proof.
  revert f. go. unfold i_mcopy. F. destruct stk as [|a [|b [|c stk]]]; bads. ws. pose proof (words_nonneg c ltac:(lia)).
  apply good_charge; [reflexivity..|]. intros Hc. F. memf b c. memf a c. dd.
Qed.
Lemma good_sload f : sane f -> good 1 f (i_sload H msg rev f).
Proof.
  revert f. go. unfold i_sload, slot_cost. F. destruct stk as [|a stk]; bads. F. destruct (rev_ge rev Berlin).
  - destruct (h_access_storage H w (self msg) a) as [[|] w1]; F; (apply good_charge; [reflexivity..|]); intros Hc; F; dd.
  - apply good_charge; [reflexivity..|]; intros Hc; F; dd.
Qed.
Lemma sstore_cost_lo r cold st : 100 <= sstore_cost r cold st.
Proof. unfold sstore_cost. destruct (rev_ge r Berlin), cold, st; cbn; lia. Qed.
Lemma sstore_refund_hi r cold st : Z.abs (sstore_refund r cold st) <= 199 * sstore_cost r cold st.
Proof.
  unfold sstore_refund, sstore_cost, clear_refund, restore_refund.
  destruct (rev_ge r Berlin), (rev_ge r London), cold, st; cbn; lia.
Qed.
Lemma good_sstore f : sane f -> good 1 f (i_sstore H msg rev f).
Proof.
  revert f. go. unfold i_sstore. F. destruct stk as [|a [|b stk]]; bads. destruct (g <=? 2300); bads.
  assert (forall cold w1, good 1 (mkFrame pc g (a :: b :: stk) mf act rt rf w)
    (let '(st, w2) := h_set_storage H w1 (self msg) a b in
      charge (sstore_cost rev cold st) (mkFrame pc g (a :: b :: stk) mf act rt rf w2) (fun f2 =>
      yield stk (add_refund (sstore_refund rev cold st) f2)))) as Hm.
  { intros cold w1. destruct (h_set_storage H w1 (self msg) a b) as [st w2].
    pose proof (sstore_cost_lo rev cold st). pose proof (sstore_refund_hi rev cold st).
    apply good_charge; [reflexivity..|]. intros Hc. F. dd. }
  destruct (rev_ge rev Berlin).
  - destruct (h_access_storage H w (self msg) a) as [st w1]. apply (Hm (match st with COLD => true | WARM => false end) w1).
  - apply (Hm true w).
Qed.
Lemma good_tstore f : sane f -> good 0 f (i_tstore H msg f).
Proof. revert f. go. unfold i_tstore. F. destruct stk as [|a [|b stk]]; bads. dd. Qed.
Lemma good_jump f : sane f -> good 0 f (i_jump vd f).
Proof. revert f. go. unfold i_jump. F. destruct stk as [|a stk]; bads. destruct (vd a); bads. dd. Qed.
Lemma good_jumpi f : sane f -> good 0 f (i_jumpi vd f).
Proof. revert f. go. unfold i_jumpi. F. destruct stk as [|a [|b stk]]; bads. destruct (b =? 0); [dd|]. destruct (vd a); bads. dd. Qed.
Lemma good_pushn n f : sane f -> good 0 f (i_push code n f).
Proof. revert f. go. unfold i_push. F. dd. Qed.
Lemma good_dup n f : sane f -> good 0 f (i_dup n f).
Proof. revert f. go. unfold i_dup. F. destruct (nth_error _ _); bads. unfold push. F. dd. Qed.
Lemma good_swap n f : sane f -> good 0 f (i_swap n f).
Proof. revert f. go. unfold i_swap. F. destruct stk; bads. destruct (nth_error _ _); bads. F. dd. Qed.
Lemma good_log n f : sane f -> good 0 f (i_log H msg n f).
Proof.
  revert f. go. unfold i_log. F. destruct stk as [|a [|b stk]]; bads. ws.
  apply good_charge; [reflexivity..|]. intros Hc. unfold mem_fee in *. F. memf a b. dd.
Qed.
Lemma good_return h lo f : sane f -> good lo f (i_return h f).
Proof.
  revert f. go. unfold i_return. F. destruct stk as [|a [|b stk]]; bads. ws.
  apply good_charge; [reflexivity..|]. intros Hc. unfold mem_fee in *. F. memf a b. split; [dd|].
  F. split; [apply read_bytes_byte; intros; apply Hmb; lia|]. rewrite read_bytes_zlen.
  destruct (Z.eq_dec b 0); [lia|]. pose proof (expand_end act a b ltac:(assumption)). lia.
Qed.
(** SELFDESTRUCT: its refund of 24000 is covered by the base fee of 5000 *)
Lemma good_selfdestruct f0 f : sane f -> dec 5000 f0 f ->
  Z.abs (f_refund f - f_refund f0) = 0 -> f_active f = f_active f0 ->
  good 0 f0 (i_selfdestruct H msg rev f).
Proof.
  intros (Hg & Ha & Hw) [D1 D2 D3 D4] Hr Hac. destruct f as [pc g stk mf act rt rf w]; F. unfold i_selfdestruct. F.
  destruct stk as [|a stk]; [cbn; split; lia|].
  set (na := (0 <? h_get_balance H w (self msg)) && negb (h_account_exists H w (addr_of a))).
  assert (forall (cold : bool) w1, good 0 f0 (
    charge ((if na then 25000 else 0) + (if cold then 2600 else 0)) (mkFrame pc g (a :: stk) mf act rt rf w1) (fun f2 =>
    let '(first, w) := h_selfdestruct H (f_world f2) (self msg) (addr_of a) in
    let f3 := with_world w f2 in
    let f4 := if first && negb (rev_ge rev London) then add_refund 24000 f3 else f3 in
    Halt Stopped [] (with_pc (pc + 1) (with_stack stk f4))))) as Hm.
  { intros cold w1. apply good_charge; [F; lia..|]. intros Hc. F.
    destruct (h_selfdestruct H w1 (self msg) (addr_of a)) as [first w2]. destruct (first && _); F; destruct na, cold; (split; [dd|]); F; (split; [apply Forall_nil|]); unfold zlen; cbn; lia. }
  destruct (rev_ge rev Berlin).
  - destruct (h_access_account H w (addr_of a)) as [st w1]. apply (Hm (match st with COLD => true | WARM => false end)).
  - apply (Hm false).
Qed.

Lemma all_but_bounds g : 0 <= g -> 0 <= all_but_64th g <= g.
Proof.
  intros. unfold all_but_64th. pose proof (Z.div_pos g 64 ltac:(lia) ltac:(lia)).
  pose proof (Z.div_le_upper_bound g 64 g ltac:(lia) ltac:(lia)). lia.
Qed.

Lemma input_ok mf act off n g : 0 <= act -> 0 <= off -> 0 <= n -> (forall a, 0 <= a -> is_byte (mf a)) ->
  Gmem (expand act off n) <= g -> g < 2 ^ 54 ->
  Forall is_byte (read_bytes mf off n) /\ zlen (read_bytes mf off n) < 2 ^ 63.
Proof.
  intros Ha Ho Hn Hb Hg Hl. split; [apply read_bytes_byte; intros; apply Hb; lia|].
  rewrite read_bytes_zlen. destruct (Z.eq_dec n 0) as [->|Hz]; [cbn; lia|].
  pose proof (expand_ge act off n). pose proof (size_small (expand act off n) ltac:(lia) ltac:(lia)).
  assert (off + n <= expand act off n). { unfold expand. destruct (Z.eqb_spec n 0); [lia|]. pose proof (words_bound (off + n)). lia. }
  change (2 ^ 37) with 137438953472 in *. change (2 ^ 63) with 9223372036854775808. lia.
Qed.
Lemma addr_of_range a : is_addr (addr_of a).
Proof. unfold addr_of, is_addr. apply Z.mod_pos_bound. lia. Qed.

Lemma good_create two f : sane f -> good 0 f (i_create H call msg rev two f).
Proof.
  revert f. go. rewrite i_create_eq.
  assert (forall v off n salt s, is_word v -> is_word off -> is_word n -> good 0 (mkFrame pc g stk mf act rt rf w)
    (create_go H call msg rev two (mkFrame pc g stk mf act rt rf w) v off n salt s)) as Hm.
  { intros v off n salt s Hv [Ho0 Ho1] [Hn0 Hn1]. unfold create_go. cbv zeta. destruct (Z.ltb_spec 1024 (msg_depth msg)) as [|Hdep]; bads. pose proof (words_nonneg n Hn0).
    apply good_charge; [reflexivity..|]. intros Hc. unfold mem_fee in *. F.
    destruct (rev_ge rev Shanghai && _); bads.
    apply good_charge; [reflexivity..|]. F. intros Hc2. memf off n.
    set (extra := (if rev_ge rev Shanghai then 2 * words n else 0) + (if two then 6 * words n else 0)) in *.
    assert (0 <= extra) by (unfold extra; destruct (rev_ge rev Shanghai), two; lia). clearbody extra.
    destruct (h_get_balance H w (self msg) <? v); [dd|].
    match goal with |- context [all_but_64th ?x] => pose proof (all_but_bounds x ltac:(lia)) as Hab; set (mg := all_but_64th x) in *; clearbody mg end.
    match goal with |- context [call w ?m] => pose proof (Hcalls w m) as Hcall; destruct (call w m) as [r w'] end.
    cbn [msg_gas msg_depth fst] in Hcall. destruct Hcall as [K1 K2 _ _ _]; [|lia|reflexivity|].
    { pose proof (mok_depth _ Hmsg). pose proof (Gmem_nonneg act Ha). pose proof (Gmem_nonneg _ (Z.le_trans _ _ _ Ha (expand_ge act off n))).
      destruct (input_ok mf act off n (g + Gmem act)) as [I1 I2]; try assumption; try lia.
      split; cbn [msg_flags msg_depth msg_gas msg_recipient msg_sender msg_input msg_value]; try assumption; try lia.
      - unfold is_addr; lia.
      - apply Hmsg. } cbn [msg_gas] in *.
    destruct (cr_status r); F; dd. }
  F. destruct two.
  - destruct stk as [|a [|b [|c [|d stk]]]]; bads. ws. apply Hm; unfold is_word; lia.
  - destruct stk as [|a [|b [|c stk]]]; bads. ws. apply (Hm a b c 0); unfold is_word; lia.
Qed.

Lemma good_call k f : sane f -> good 1 f (i_call H call msg rev k f).
Proof.
  revert f. go. rewrite i_call_eq.
  assert (forall greq a value ioff isz ooff osz s, is_word greq -> is_word value -> is_word ioff -> is_word isz -> good 1 (mkFrame pc g stk mf act rt rf w)
    (call_go H call msg rev k (mkFrame pc g stk mf act rt rf w) greq a value ioff isz ooff osz s)) as Hm.
  { intros greq a value ioff isz ooff osz s [Hq0 Hq1] Hv [Hio0 Hio1] [His0 His1]. unfold call_go, call_message. cbv zeta. destruct (Z.ltb_spec 1024 (msg_depth msg)) as [|Hdep]; bads. F.
    pose proof (expand_ge act ioff isz) as Hx1. pose proof (expand_ge (expand act ioff isz) ooff osz) as Hx2.
    set (act' := expand (expand act ioff isz) ooff osz) in *. pose proof (Gmem_mono act act' ltac:(lia)) as Hgm.
    pose proof (Gmem_mono (expand act ioff isz) act' ltac:(lia)) as Hgm2. clearbody act'.
    apply good_charge; [reflexivity..|]. intros Hc. F.
    match goal with |- good _ _ (if ?b then _ else _) => destruct b end; bads.
    match goal with |- context [account_cost H rev ?f ?a] => destruct (account_cost_eq f a) as (ac & w1 & -> & Hac) end. F.
    match goal with |- context [if ?b then 25000 else 0] => set (nc := if b then 25000 else 0); assert (0 <= nc) by (unfold nc; destruct b; lia) end. clearbody nc.
    apply good_charge; [reflexivity..|]. F. intros Hc2.
    set (tr := negb (value =? 0)) in *. clearbody tr.
    set (vc := if tr then 9000 else 0) in *. set (st := if tr then 2300 else 0) in *.
    assert (0 <= st <= 2300 /\ 0 <= vc - st) as [Hst Hvs] by (unfold vc, st; destruct tr; lia).
    clearbody vc st.
    destruct (tr && _); [dd|].
    match goal with |- context [all_but_64th ?x] => pose proof (all_but_bounds x ltac:(lia)) as Hab; set (mg := all_but_64th x) in *; clearbody mg end.
    set (fwd := Z.min greq mg) in *. assert (0 <= fwd <= mg) as Hfwd by (unfold fwd; lia). clearbody fwd.
    match goal with |- context [call w1 ?m] => pose proof (Hcalls w1 m) as Hcall; destruct (call w1 m) as [r w'] end.
    cbn [msg_gas msg_depth fst] in Hcall. destruct Hcall as [K1 K2 _ _ _]; [|lia|reflexivity|].
    { pose proof (mok_depth _ Hmsg). pose proof (mok_flags _ Hmsg). pose proof (Gmem_nonneg act Ha). pose proof (Gmem_nonneg act' ltac:(lia)).
      destruct (input_ok mf act ioff isz (g + Gmem act)) as [I1 I2]; try assumption; try lia.
      split; cbn [msg_flags msg_depth msg_gas msg_recipient msg_sender msg_input msg_value]; try assumption; try lia.
      - destruct k; unfold EVMC_STATIC; lia.
      - destruct k; try apply addr_of_range; apply Hmsg.
      - destruct k; apply Hmsg.
      - destruct k; try assumption; apply Hmsg. } cbn [msg_gas] in *.
    F. dd. }
  F.
  assert (Hz : is_word 0) by (unfold is_word; lia). destruct k.
  - destruct stk as [|a [|b [|c [|d [|e [|f [|h stk]]]]]]]; bads. ws. apply Hm; unfold is_word; lia.
  - destruct stk as [|a [|b [|c [|d [|e [|f [|h stk]]]]]]]; bads. ws. apply Hm; unfold is_word; lia.
  - destruct stk as [|a [|b [|d [|e [|f [|h stk]]]]]]; bads. ws. apply (Hm a b 0); unfold is_word; lia.
  - destruct stk as [|a [|b [|d [|e [|f [|h stk]]]]]]; bads. ws. apply (Hm a b 0); unfold is_word; lia.
Qed.

Lemma good_weaken lo lo' f o : lo' <= lo -> good lo f o -> good lo' f o.
Proof. intros. destruct o; cbn in *; auto. destruct H1. split; auto. lia. Qed.

Lemma byte_cases (P : Z -> Prop) : Forall P (map Z.of_nat (seq 0 256)) -> forall b, is_byte b -> P b.
Proof.
  intros HF b Hb. rewrite Forall_forall in HF. apply HF. unfold is_byte in Hb.
  rewrite <- (Z2Nat.id b) by lia. apply in_map. apply in_seq. lia.
Qed.

Lemma exec_good b i f : is_byte b -> instruction b = Some i -> b <> 0xFF -> sane f ->
  good (if in_fee i =? 0 then 1 else 0) f (exec b f).
Proof.
  intros Hb. revert b Hb i. 
  apply (byte_cases (fun b => forall i, instruction b = Some i -> b <> 0xFF -> sane f -> good (if in_fee i =? 0 then 1 else 0) f (exec b f))).
  cbn [seq map Z.of_nat Pos.of_succ_nat Pos.succ].
  repeat (apply Forall_cons; [
    let i := fresh in let E := fresh "Ei" in let n := fresh in let Hs := fresh "Hs" in
    intros i E n Hs; cbn in E; first [discriminate E | injection E as <-]; cbn [in_fee Z.eqb];
    pose proof Hs as (?Hg & _ & _);
    first [ exfalso; apply n; reflexivity
      | exact (good_un _ _ Hg) | exact (good_bin _ _ Hg) | exact (good_tern _ _ Hg) | exact (good_push _ _ Hg)
      | exact (good_exp _ Hs) | exact (good_sha3 _ Hs) | exact (good_account _ _ Hs) | exact (good_copy _ _ Hs)
      | exact (good_extcodecopy _ Hs) | exact (good_returndatacopy _ Hs) | exact (good_mload _ Hs) | exact (good_mstore _ Hs)
      | exact (good_mstore8 _ Hs) | exact (good_mcopy _ Hs) | exact (good_sload _ Hs) | exact (good_sstore _ Hs)
      | exact (good_tstore _ Hs) | exact (good_jump _ Hs) | exact (good_jumpi _ Hs) | exact (good_pushn _ _ Hs)
      | exact (good_dup _ _ Hs) | exact (good_swap _ _ Hs) | exact (good_log _ _ Hs)
      | exact (good_return _ _ _ Hs) | exact (good_create _ _ Hs) | exact (good_call _ _ Hs)
      | idtac ]
  | ]); [..|apply Forall_nil].
  - split; [exact (mkDec 0 f (with_pc (f_pc f + 1) f) ltac:(F; lia) ltac:(F; lia) ltac:(F; lia) ltac:(F; lia))|].
    split; [apply Forall_nil|unfold zlen; cbn; lia].
  - change (good 0 f (match f_stack f with _ :: s => yield s f | _ => bad f end)).
    destruct f as [pc g stk mf act rt rf w]. F. destruct stk; bads. dd.
  - exact (mkDec 0 f (with_pc (f_pc f + 1) f) ltac:(F; lia) ltac:(F; lia) ltac:(F; lia) ltac:(F; lia)).
Qed.

Lemma byte_check (p : Z -> bool) : forallb p (map Z.of_nat (seq 0 256)) = true -> forall b, is_byte b -> p b = true.
Proof. intros h. apply byte_cases. apply Forall_forall. apply forallb_forall. exact h. Qed.

Lemma fee_nn b i : is_byte b -> instruction b = Some i -> 0 <= in_fee i.
Proof.
  intros Hb E.
  pose proof (byte_check (fun b => match instruction b with Some i => 0 <=? in_fee i | None => true end) eq_refl b Hb) as h.
  cbv beta in h. rewrite E in h. apply Z.leb_le. exact h.
Qed.

Lemma code_at_byte p : Forall is_byte code -> is_byte (code_at code p).
Proof. intros. apply data_at_byte. assumption. Qed.

Theorem step_good f : Forall is_byte code -> sane f -> good 1 f (step f).
Proof.
  intros Hcode Hs. unfold SpecEvm.step. pose proof (code_at_byte (f_pc f) Hcode) as Hb.
  set (b := code_at code (f_pc f)) in *. destruct (instruction b) as [i|] eqn:Ei.
  2:{ destruct (f_gas f <? 0); cbn; auto. }
  destruct (negb _); [cbn; auto|]. destruct (_ && _); [cbn; auto|]. destruct (_ <? _); [cbn; auto|]. destruct (_ <? _); [cbn; auto|].
  pose proof (fee_nn b i Hb Ei) as Hf. unfold charge. destruct (Z.ltb_spec (f_gas f) (in_fee i)); [cbn; auto|].
  destruct Hs as (Hg & Ha & Hw & Hmb & Hlim). set (f1 := with_gas (f_gas f - in_fee i) f).
  assert (sane f1) as Hs1 by (unfold sane, f1; F; split; [lia|]; split; [assumption|]; split; [assumption|]; split; [assumption|lia]).
  destruct (Z.eq_dec b 0xFF) as [Hff|Hff].
  - rewrite Hff in *. injection Ei as <-. cbn [in_fee] in *.
    eapply good_selfdestruct in Hs1. 2:{ instantiate (1 := f). split; unfold f1; F; lia. } 2: unfold f1; F; lia. 2: reflexivity.
    change (exec 255 f1) with (i_selfdestruct H msg rev f1).
    unfold i_selfdestruct in *. destruct (f_stack f1); [exact Hs1|].
    destruct (rev_ge rev Berlin); [destruct (h_access_account H (f_world f1) (addr_of z))|]; unfold charge in *;
    (destruct (_ <? _); [exact Hs1|]; destruct (h_selfdestruct _ _ _ _); exact Hs1).
  - pose proof (exec_good b i f1 Hb Ei Hff Hs1) as G.
    destruct (exec b f1) as [f'|h o f'|e f']; cbn in *; auto.
    + destruct G as [G1 G2 G3 G4]. unfold f1 in *. F. split; try lia. destruct (Z.eqb_spec (in_fee i) 0); lia.
    + destruct G as [[G1 G2 G3 G4] G5]. unfold f1 in *. F. split; [split; lia|exact G5].
Qed.
End SpecFacts.
