(** What calls do. *)
From Verif Require Import Base Host SpecEvm SpecVm Vm Client GoAdapter Floria SpecTx MemFacts ClientFacts SpecHost StaticFacts RunInv FloriaFacts FloriaInv TxFacts TxFacts2 TxFacts3 TxFacts4 PropFacts.
From Coq Require Import Lia ZArith List Bool String.
Import ListNotations.
Local Open Scope list_scope.

Section TxFacts5.
Context {W : Type}.
Variable f : floria W.
Hypothesis Hf : floria_ok f.
Notation ctx := (fl_ctx f).
Notation rc := (x_rc (fl_ctx f)).
Notation WW := (W * rctx)%type.
Let Hc := fo_ctx f Hf.
Notation mach0 := (machine f fb0 tick0 bufs0).
Notation balance := (rc_balance rc).
Notation nonce := (rc_nonce rc).
Notation code := (rc_code rc).

Lemma ref_to w r kind p res w' : params_ok p -> 0 <= r_depth r -> ref_call f w r kind p = (res, w') -> calls_to f w r kind p res w'.
Proof. intros Hp Hd E. pose proof (proj1 (call_ref f Hf w r kind p Hp Hd)) as C. rewrite E in C. exact C. Qed.
Lemma done_call r res (w : W) : (let '(cr, x) := play (reference mach0) (Done (cresult_of res) (w, r)) in (call_result_of cr, fst x)) = (res, w).
Proof. cbn [play]. rewrite call_round. reflexivity. Qed.
Lemma kind_not_create kind : is_create kind = false -> kind <> GoCreate /\ kind <> GoCreate2.
Proof. destruct kind; split; congruence || discriminate. Qed.

Lemma transfer_eq w v s b : is_word v -> transferValue f w v s b = transferred f w v s b.
Proof.
  intros [V1 V2]. unfold transferValue, transferred. rewrite (Z.mod_small v) by lia. destruct (v =? 0); [reflexivity|]. destruct (Z.ltb_spec (balance w s) v); [reflexivity|].
  destruct (s =? b); [reflexivity|]. pose proof (xo_balance _ Hc w s) as [B1 B2]. pose proof (xo_balance _ Hc w b) as [B3 B4].
  destruct (Z.leb_spec (2 ^ 256) (balance w b + v)) as [L|L].
  - assert (M : (balance w b + v) mod 2 ^ 256 = balance w b + v - 2 ^ 256) by (symmetry; apply Z.mod_unique with 1; lia).
    rewrite M. destruct (Z.ltb_spec (balance w b + v - 2 ^ 256) (balance w b)); [reflexivity|lia].
  - rewrite !(Z.mod_small (balance w b + v)) by lia. rewrite (Z.mod_small (balance w s - v)) by lia.
    destruct (Z.ltb_spec (balance w b + v) (balance w b)); [lia|]. destruct (Z.ltb_spec (balance w b + v) v); [lia|]. reflexivity.
Qed.
Lemma moved_eq w kind p : params_ok p -> match kind with GoStaticCall | GoDelegateCall => Some w | _ => transferValue f w (cp_value p) (cp_sender p) (cp_recipient p) end = moved f w kind p.
Proof. intros Hp. unfold moved. rewrite (transfer_eq w (cp_value p)) by apply (po_value _ Hp). destruct kind; reflexivity. Qed.

Theorem call_too_deep w r kind p : params_ok p -> 1024 < r_depth r -> calls_to f w r kind p (Some no_result) w.
Proof.
  intros Hp Hd. apply ref_to; [exact Hp|lia|]. unfold ref_call, Call. apply Z.ltb_lt in Hd. unfold MaxRecursiveDepth. rewrite Hd. apply done_call.
Qed.
Theorem call_unfunded w r kind p : params_ok p -> 0 <= r_depth r -> is_create kind = false -> moved f w kind p = None -> calls_to f w r kind p (Some no_result) w.
Proof.
  intros Hp Hd Hk Hm. apply ref_to; [exact Hp|lia|]. unfold ref_call, Call. destruct (_ <? _); [apply done_call|].
  destruct (call_code f w kind p). rewrite Hk. cbn [andb]. rewrite (moved_eq w kind p Hp), Hm. apply done_call.
Qed.
(** the recipient has no code *)
Lemma run_nothing x rev m : 0 <= msg_gas m -> reference mach0 x rev [] m = (mkRes EVMC_SUCCESS (msg_gas m) 0 [] 0, x).
Proof. intros Hg. unfold reference, machine. cbn [g_host g_keccak g_handler eval]. unfold evaluate. apply empty_code_run. exact Hg. Qed.
Theorem call_no_code w r kind p w1 : params_ok p -> 0 <= r_depth r <= 1024 -> is_create kind = false -> moved f w kind p = Some w1 ->
  cp_recipient p <> StateContractAddress -> fl_precompile f (fl_rev f (r_block r)) (cp_recipient p) = None -> code w (source kind p) = [] ->
  calls_to f w r kind p (Some (mkCallResult [] (cp_gas p) 0 0 true)) w1.
Proof.
  intros Hp Hd Hk Hm Hst Hpre Hcode. apply ref_to; [exact Hp|lia|]. unfold ref_call, Call. destruct (Z.ltb_spec MaxRecursiveDepth (r_depth r)) as [X|_]; [unfold MaxRecursiveDepth in X; lia|].
  destruct (call_code f w kind p) as [cd hash] eqn:Ec. unfold call_code in Ec. change (code_source kind p) with (source kind p) in Ec. rewrite Hk in *. cbn [andb] in *. injection Ec as <- <-. rewrite Hcode.
  rewrite (moved_eq w kind p Hp), Hm.
  assert (E1 : handleStateContract f w1 (cp_sender p) (cp_recipient p) (cp_input p) (cp_gas p) = None).
  { unfold handleStateContract. apply Z.eqb_neq in Hst. rewrite Hst. reflexivity. }
  rewrite E1. unfold handlePrecompiledContract. rewrite Hpre. destruct (match kind with GoCall => _ | _ => false end); [apply done_call|].
  change (2 ^ 32 <? zlen []) with false. cbn [play]. rewrite run_nothing by (cbn [run_message message_of msg_gas p_gas]; apply (po_gas _ Hp)).
  cbn [go_result_of cr_status cr_output cr_gas_left cr_gas_refund go_success negb play go_output go_gas_left go_gas_refund fst call_result_of cresult_of gr_success gr_gas_left gr_gas_refund gr_output gr_created cr_create_address].
  reflexivity.
Qed.
(** failing calls leave nothing behind *)
Theorem failed_call_undone w r kind p res w' : params_ok p -> 0 <= r_depth r -> is_create kind = false ->
  cp_recipient p <> StateContractAddress -> fl_precompile f (fl_rev f (r_block r)) (cp_recipient p) = None ->
  calls_to f w r kind p res w' -> match res with Some res => gr_success res = false | None => True end -> w' = w.
Proof.
  intros Hp Hd Hk Hst Hpre C Hres. destruct (calls_ref f Hf _ _ _ _ _ _ Hp Hd C) as [R _]. clear C. revert R. unfold ref_call, Call.
  destruct (MaxRecursiveDepth <? r_depth r); [rewrite done_call; congruence|]. destruct (call_code f w kind p) as [cd hash]. rewrite Hk. cbn [andb].
  destruct (match kind with GoStaticCall | GoDelegateCall => Some w | _ => _ end) as [w1|]; [|rewrite done_call; congruence].
  assert (E1 : handleStateContract f w1 (cp_sender p) (cp_recipient p) (cp_input p) (cp_gas p) = None).
  { unfold handleStateContract. apply Z.eqb_neq in Hst. rewrite Hst. reflexivity. }
  rewrite E1. unfold handlePrecompiledContract. rewrite Hpre.
  destruct (match kind with GoCall => _ | _ => false end); [rewrite done_call; intros E; injection E as <- <-; discriminate Hres|].
  destruct (_ <? _); [rewrite done_call; congruence|]. cbn [play]. destruct (reference mach0 _ _ _ _) as [cr x].
  destruct (go_result_of cr) as [g|e]; [|rewrite done_call; congruence]. destruct (go_success g); cbn [negb]; rewrite done_call; [|congruence].
  intros E. injection E as <- <-. discriminate Hres.
Qed.

(** ** Precompiled contracts *)
Theorem call_precompiled w r kind p w1 c : params_ok p -> 0 <= r_depth r <= 1024 -> is_create kind = false -> moved f w kind p = Some w1 ->
  cp_recipient p <> StateContractAddress -> fl_precompile f (fl_rev f (r_block r)) (cp_recipient p) = Some c ->
  calls_to f w r kind p
    (Some (if cp_gas p <? pre_gas c (cp_input p) then no_result
           else match pre_run c (cp_input p) with
                | Some out => mkCallResult out (cp_gas p - pre_gas c (cp_input p)) 0 0 true
                | None => mkCallResult [] (cp_gas p - pre_gas c (cp_input p)) 0 0 false
                end)) w1.
Proof.
  intros Hp Hd Hk Hm Hst Hpre. apply ref_to; [exact Hp|lia|]. unfold ref_call, Call. destruct (Z.ltb_spec MaxRecursiveDepth (r_depth r)) as [X|_]; [unfold MaxRecursiveDepth in X; lia|].
  destruct (call_code f w kind p) as [cd hash]. rewrite Hk. cbn [andb]. rewrite (moved_eq w kind p Hp), Hm.
  assert (E1 : handleStateContract f w1 (cp_sender p) (cp_recipient p) (cp_input p) (cp_gas p) = None).
  { unfold handleStateContract. apply Z.eqb_neq in Hst. rewrite Hst. reflexivity. }
  rewrite E1. unfold handlePrecompiledContract. rewrite Hpre. pose proof (fo_pre_gas _ Hf _ _ _ (cp_input p) Hpre) as G. pose proof (po_gas _ Hp) as Gp.
  rewrite (s64_small (pre_gas c (cp_input p))) by exact G. destruct (Z.ltb_spec (cp_gas p) (pre_gas c (cp_input p))); [apply done_call|].
  rewrite s64_small by (assert (2 ^ 54 < 2 ^ 63) by reflexivity; lia). destruct (pre_run c (cp_input p)); apply done_call.
Qed.

(** ** The state contract *)
Lemma call_state w r kind p w1 res w' : params_ok p -> 0 <= r_depth r <= 1024 -> is_create kind = false -> moved f w kind p = Some w1 ->
  handleStateContract f w1 (cp_sender p) (cp_recipient p) (cp_input p) (cp_gas p) = Some (res, w') -> calls_to f w r kind p (Some res) w'.
Proof.
  intros Hp Hd Hk Hm E1. apply ref_to; [exact Hp|lia|]. unfold ref_call, Call. destruct (Z.ltb_spec MaxRecursiveDepth (r_depth r)) as [X|_]; [unfold MaxRecursiveDepth in X; lia|].
  destruct (call_code f w kind p) as [cd hash]. rewrite Hk. cbn [andb]. rewrite (moved_eq w kind p Hp), Hm, E1. apply done_call.
Qed.
(** only the driver may use it *)
Theorem state_contract_refuses w r kind p w1 : params_ok p -> 0 <= r_depth r <= 1024 -> is_create kind = false -> moved f w kind p = Some w1 ->
  cp_recipient p = StateContractAddress -> cp_sender p <> DriverAddress -> calls_to f w r kind p (Some no_result) w1.
Proof.
  intros Hp Hd Hk Hm Hst Hs. apply (call_state w r kind p w1); try assumption. unfold handleStateContract. apply Z.eqb_neq in Hs. rewrite Hst, Z.eqb_refl, Hs. reflexivity.
Qed.
Lemma slice_at {A} (a b c : list A) i n : zlen a = i -> zlen b = n -> slice (a ++ b ++ c) i n = b.
Proof.
  intros Ei En. unfold slice. unfold zlen in *. rewrite <- Ei, <- En, !Nat2Z.id. rewrite skipn_app, skipn_all, Nat.sub_diag. cbn [app skipn].
  rewrite firstn_app, Nat.sub_diag, firstn_all. cbn [firstn]. apply app_nil_r.
Qed.
Lemma slice_end {A} (a b : list A) i n : zlen a = i -> zlen b = n -> slice (a ++ b) i n = b.
Proof. intros Ei En. pose proof (slice_at a b [] i n Ei En) as X. rewrite app_nil_r in X. exact X. Qed.


Lemma zlen_app' {A} (a b : list A) : zlen (a ++ b) = zlen a + zlen b.
Proof. unfold zlen. rewrite app_length. lia. Qed.
Lemma address_at a b b1 v i n : an_address b1 v -> zlen a = i -> n = i + 12 -> be (slice (a ++ b1 ++ b) n 20) = v.
Proof.
  intros (pad & addr & -> & L1 & L2 & E) Ei ->. rewrite <- app_assoc, app_assoc. rewrite (slice_at (a ++ pad) addr b (i + 12) 20); [exact E|rewrite zlen_app'; lia|exact L2].
Qed.
Lemma word_at a b b1 v i : a_word b1 v -> zlen a = i -> be (slice (a ++ b1 ++ b) i 32) = v.
Proof. intros [L E] Ei. rewrite (slice_at a b1 b i 32 Ei L). exact E. Qed.
Lemma address_len b v : an_address b v -> zlen b = 32.
Proof. intros (pad & addr & -> & L1 & L2 & _). rewrite zlen_app'. lia. Qed.
Lemma selectors_differ : NoDup (map (selector f) method_names) -> forall m m' : state_method,
  selector f (method_name m) = selector f (method_name m') -> method_name m = method_name m'.
Proof.
  intros N m m' E. unfold method_names in N. cbn [map method_name] in N.
  repeat match goal with H : NoDup (_ :: _) |- _ => let A := fresh "A" in let B := fresh "B" in inversion H as [|? ? A B]; subst; clear H; cbn [In] in A end.
  destruct m, m'; cbn [method_name] in *; try reflexivity; exfalso; intuition congruence.
Qed.
Theorem state_contract_serves w r kind p w1 sel args m : params_ok p -> 0 <= r_depth r <= 1024 -> is_create kind = false -> moved f w kind p = Some w1 ->
  cp_recipient p = StateContractAddress -> cp_sender p = DriverAddress -> NoDup (map (selector f) method_names) ->
  cp_input p = sel ++ args -> zlen sel = 4 -> be sel = selector f (method_name m) -> encodes args m ->
  (method_price f w1 m <= cp_gas p -> method_allowed m -> calls_to f w r kind p (Some (mkCallResult [] (cp_gas p - method_price f w1 m) 0 0 true)) (method_effect f w1 m)) /\
  (cp_gas p < method_price f w1 m \/ ~ method_allowed m -> calls_to f w r kind p (Some no_result) w1).
Proof.
  intros Hp Hd Hk Hm Hrec Hs Nd Ei L4 Es En.
  set (X := handleStateContract f w1 (cp_sender p) (cp_recipient p) (cp_input p) (cp_gas p)).
  assert (EX : (method_price f w1 m <= cp_gas p -> method_allowed m -> X = Some (mkCallResult [] (cp_gas p - method_price f w1 m) 0 0 true, method_effect f w1 m)) /\
    (cp_gas p < method_price f w1 m \/ ~ method_allowed m -> X = Some (no_result, w1))).
  2: { destruct EX as [E1 E2]. split; intros; eapply call_state; eauto. }
  unfold X, handleStateContract. rewrite Hs, Hrec, !Z.eqb_refl, Ei. cbn [negb]. rewrite zlen_app', L4. pose proof (zlen_nonneg args) as La. destruct (Z.ltb_spec (4 + zlen args) 4); [lia|].
  rewrite (slice_end sel args 4 (4 + zlen args - 4)) by lia.
  assert (Esl : be (slice (sel ++ args) 0 4) = be sel) by exact (f_equal be (slice_at [] sel args 0 4 eq_refl L4)).
  rewrite Esl, Es. clear Esl X. change (method_id f) with (selector f).
  pose proof (selectors_differ Nd m) as Df.
  pose proof (Df (SetBalance 0 0)) as D1. pose proof (Df (CopyCode 0 0)) as D2. pose proof (Df (SwapCode 0 0)) as D3. pose proof (Df (SetStorage 0 0 0)) as D4. pose proof (Df (IncNonce 0 0)) as D5. clear Df.
  cbn [method_name] in D1, D2, D3, D4, D5. set (gas := cp_gas p) in *.
  assert (HE : forall (Q : string) (b : bool), b = (selector f (method_name m) =? selector f Q) -> (selector f (method_name m) = selector f Q -> method_name m = Q) -> b = true -> method_name m = Q)
    by (intros Q b -> Hq Hb; apply Hq; apply Z.eqb_eq; exact Hb).
  destruct m as [a v|a b|a b|a k v|a n]; cbn [method_name method_price method_allowed method_effect encodes] in *.
  - rewrite Z.eqb_refl. destruct En as (b1 & b2 & -> & A1 & A2). unfold executeStateSetBalance, callValueTransferGas. rewrite zlen_app', (address_len _ _ A1), (proj1 A2). cbn [negb Z.add Z.eqb Pos.add Pos.eqb].
    rewrite (address_at [] b2 b1 a 0 12 A1 eq_refl eq_refl : be (slice (b1 ++ b2) 12 20) = a).
    assert (Ew : be (slice (b1 ++ b2) 32 32) = v) by (pose proof (word_at b1 [] b2 v 32 A2 (address_len _ _ A1)) as Y; rewrite app_nil_r in Y; exact Y). rewrite Ew.
    destruct (Z.ltb_spec gas 9000); [split; [lia|reflexivity]|]. change (negb (32 + 32 =? 64)) with false. cbn match.
    destruct (Z.eqb_spec a DriverAddress); split; try reflexivity; try contradiction; intros []; try lia; contradiction.
  - destruct (Z.eqb_spec (selector f "copyCode(address,address)") (selector f "setBalance(address,uint256)")) as [X|_]; [specialize (D1 X); discriminate D1|]. rewrite Z.eqb_refl.
    destruct En as (b1 & b2 & -> & A1 & A2). unfold executeStateContractCopyCode, createGas, createDataGas, memoryGas. rewrite zlen_app', (address_len _ _ A1), (address_len _ _ A2).
    rewrite (address_at [] b2 b1 a 0 12 A1 eq_refl eq_refl : be (slice (b1 ++ b2) 12 20) = a).
    assert (Ew : be (slice (b1 ++ b2) 44 20) = b) by (pose proof (address_at b1 [] b2 b 32 44 A2 (address_len _ _ A1) eq_refl) as Y; rewrite app_nil_r in Y; exact Y). rewrite Ew.
    pose proof (zlen_nonneg (code w1 b)).
    destruct (Z.ltb_spec gas 32000); [split; [lia|reflexivity]|]. change (negb (32 + 32 =? 64)) with false. cbn match.
    destruct (Z.ltb_spec (gas - 32000) (zlen (code w1 b) * (200 + 3))); [split; [lia|reflexivity]|]. rewrite (Z.eqb_sym b a).
    split; [|intros [?|N]; [lia|elim N; exact Logic.I]]. intros _ _. unfold ok. do 3 f_equal; lia.
  - destruct (Z.eqb_spec (selector f "swapCode(address,address)") (selector f "setBalance(address,uint256)")) as [X|_]; [specialize (D1 X); discriminate D1|].
    destruct (Z.eqb_spec (selector f "swapCode(address,address)") (selector f "copyCode(address,address)")) as [X|_]; [specialize (D2 X); discriminate D2|]. rewrite Z.eqb_refl.
    destruct En as (b1 & b2 & -> & A1 & A2). unfold executeStateContractSwapCode, createGas, createDataGas, memoryGas. rewrite zlen_app', (address_len _ _ A1), (address_len _ _ A2).
    rewrite (address_at [] b2 b1 a 0 12 A1 eq_refl eq_refl : be (slice (b1 ++ b2) 12 20) = a).
    assert (Ew : be (slice (b1 ++ b2) 44 20) = b) by (pose proof (address_at b1 [] b2 b 32 44 A2 (address_len _ _ A1) eq_refl) as Y; rewrite app_nil_r in Y; exact Y). rewrite Ew.
    pose proof (zlen_nonneg (code w1 b)). pose proof (zlen_nonneg (code w1 a)).
    replace (zlen (code w1 a) * (200 + 3) + zlen (code w1 b) * (200 + 3)) with (203 * (zlen (code w1 a) + zlen (code w1 b))) by lia.
    assert (0 <= 203 * (zlen (code w1 a) + zlen (code w1 b)) / 2) by (apply Z.div_pos; lia). set (cost := 203 * _ / 2) in *. clearbody cost.
    destruct (Z.ltb_spec gas (2 * 32000)); [split; [lia|reflexivity]|]. change (negb (32 + 32 =? 64)) with false. cbn match.
    destruct (Z.ltb_spec (gas - 2 * 32000) cost); [split; [lia|reflexivity]|].
    split; [|intros [?|N]; [lia|elim N; exact Logic.I]]. intros _ _. unfold ok. do 3 f_equal; lia.
  - destruct (Z.eqb_spec (selector f "setStorage(address,bytes32,bytes32)") (selector f "setBalance(address,uint256)")) as [X|_]; [specialize (D1 X); discriminate D1|].
    destruct (Z.eqb_spec (selector f "setStorage(address,bytes32,bytes32)") (selector f "copyCode(address,address)")) as [X|_]; [specialize (D2 X); discriminate D2|].
    destruct (Z.eqb_spec (selector f "setStorage(address,bytes32,bytes32)") (selector f "swapCode(address,address)")) as [X|_]; [specialize (D3 X); discriminate D3|]. rewrite Z.eqb_refl.
    destruct En as (b1 & b2 & b3 & -> & A1 & A2 & A3). unfold executeStateContractSetStorage, sStoreSetGasEIP2200. rewrite !zlen_app', (address_len _ _ A1), (proj1 A2), (proj1 A3).
    rewrite (address_at [] (b2 ++ b3) b1 a 0 12 A1 eq_refl eq_refl : be (slice (b1 ++ b2 ++ b3) 12 20) = a). rewrite (word_at b1 b3 b2 k 32 A2 (address_len _ _ A1)).
    assert (Ew : be (slice (b1 ++ b2 ++ b3) 64 32) = v).
    { assert (L12 : zlen (b1 ++ b2) = 64) by (rewrite zlen_app', (address_len _ _ A1), (proj1 A2); reflexivity). pose proof (word_at (b1 ++ b2) [] b3 v 64 A3 L12) as Y. rewrite app_nil_r, <- app_assoc in Y. exact Y. }
    rewrite Ew.
    destruct (Z.ltb_spec gas 20000); [split; [lia|reflexivity]|]. change (negb (32 + (32 + 32) =? 96)) with false. cbn match.
    split; [reflexivity|intros [?|N]; [lia|elim N; exact Logic.I]].
  - destruct (Z.eqb_spec (selector f "incNonce(address,uint256)") (selector f "setBalance(address,uint256)")) as [X|_]; [specialize (D1 X); discriminate D1|].
    destruct (Z.eqb_spec (selector f "incNonce(address,uint256)") (selector f "copyCode(address,address)")) as [X|_]; [specialize (D2 X); discriminate D2|].
    destruct (Z.eqb_spec (selector f "incNonce(address,uint256)") (selector f "swapCode(address,address)")) as [X|_]; [specialize (D3 X); discriminate D3|].
    destruct (Z.eqb_spec (selector f "incNonce(address,uint256)") (selector f "setStorage(address,bytes32,bytes32)")) as [X|_]; [specialize (D4 X); discriminate D4|]. rewrite Z.eqb_refl.
    destruct En as (b1 & b2 & -> & A1 & A2). unfold executeStateContractIncNonce, callValueTransferGas. rewrite zlen_app', (address_len _ _ A1), (proj1 A2).
    rewrite (address_at [] b2 b1 a 0 12 A1 eq_refl eq_refl : be (slice (b1 ++ b2) 12 20) = a).
    assert (Ew : be (slice (b1 ++ b2) 32 32) = n) by (pose proof (word_at b1 [] b2 n 32 A2 (address_len _ _ A1)) as Y; rewrite app_nil_r in Y; exact Y). rewrite Ew. unfold u64.
    destruct (Z.ltb_spec gas 9000); [split; [lia|reflexivity]|]. change (negb (32 + 32 =? 64)) with false. cbn match.
    destruct (Z.eqb_spec a DriverAddress); [split; [intros _ []; contradiction|reflexivity]|].
    destruct (Z.leb_spec (n mod 2 ^ 64) 0); [split; [lia|reflexivity]|]. destruct (Z.leb_spec 256 (n mod 2 ^ 64)); cbn [orb]; [split; [lia|reflexivity]|].
    split; [reflexivity|intros [?|N]; [lia|elim N; split; [assumption|lia]]].
Qed.
(** anything else is refused *)
Lemma split_len {A} (l : list A) n m : 0 <= n -> 0 <= m -> zlen l = n + m -> exists x y, l = x ++ y /\ zlen x = n /\ zlen y = m.
Proof.
  intros Hn Hm E. exists (firstn (Z.to_nat n) l), (skipn (Z.to_nat n) l). split; [symmetry; apply firstn_skipn|]. unfold zlen in *. rewrite firstn_length, skipn_length. lia.
Qed.
Lemma is_address l : zlen l = 32 -> an_address l (be (slice l 12 20)).
Proof.
  intros E. destruct (split_len l 12 20 ltac:(lia) ltac:(lia) E) as (x & y & -> & L1 & L2). exists x, y. rewrite (slice_end x y 12 20 L1 L2). auto.
Qed.
Lemma is_two l : zlen l = 64 -> exists b1 b2 a1 a2, l = b1 ++ b2 /\ an_address b1 a1 /\ an_address b2 a2 /\ a_word b2 (be b2).
Proof.
  intros E. destruct (split_len l 32 32 ltac:(lia) ltac:(lia) E) as (x & y & -> & L1 & L2). exists x, y. eexists _, _. split; [reflexivity|]. split; [apply is_address; exact L1|]. split; [apply is_address; exact L2|]. split; [exact L2|reflexivity].
Qed.
Theorem state_contract_unknown w r kind p w1 : params_ok p -> 0 <= r_depth r <= 1024 -> is_create kind = false -> moved f w kind p = Some w1 ->
  cp_recipient p = StateContractAddress -> cp_sender p = DriverAddress ->
  (forall sel args m, cp_input p = sel ++ args -> zlen sel = 4 -> be sel = selector f (method_name m) -> ~ encodes args m) ->
  calls_to f w r kind p (Some no_result) w1.
Proof.
  intros Hp Hd Hk Hm Hrec Hs N. apply (call_state w r kind p w1); try assumption. unfold handleStateContract. rewrite Hs, Hrec, !Z.eqb_refl. cbn [negb].
  pose proof (zlen_nonneg (cp_input p)) as L0. destruct (Z.ltb_spec (zlen (cp_input p)) 4); [reflexivity|].
  destruct (split_len (cp_input p) 4 (zlen (cp_input p) - 4) ltac:(lia) ltac:(lia) ltac:(lia)) as (sel & args & E & L1 & L2).
  specialize (N sel args). assert (N' := fun m => N m E L1). clear N.
  rewrite E. assert (E' : slice (sel ++ args) 4 (zlen (sel ++ args) - 4) = args) by (apply slice_end; [exact L1|rewrite <- E; exact L2]). rewrite E'.
  assert (Esl : be (slice (sel ++ args) 0 4) = be sel) by exact (f_equal be (slice_at [] sel args 0 4 eq_refl L1)). rewrite Esl. change (method_id f) with (selector f).
  set (gas := cp_gas p).
  destruct (Z.eqb_spec (be sel) (selector f "setBalance(address,uint256)")) as [Eq|_].
  { unfold executeStateSetBalance. destruct (gas <? _); [reflexivity|]. destruct (Z.eqb_spec (zlen args) 64) as [L|]; [|reflexivity]. destruct (is_two args L) as (b1 & b2 & a1 & a2 & -> & A1 & A2 & A3).
    elim (N' (SetBalance a1 (be b2)) Eq). exists b1, b2. auto. }
  destruct (Z.eqb_spec (be sel) (selector f "copyCode(address,address)")) as [Eq|_].
  { unfold executeStateContractCopyCode. destruct (gas <? _); [reflexivity|]. destruct (Z.eqb_spec (zlen args) 64) as [L|]; [|reflexivity]. destruct (is_two args L) as (b1 & b2 & a1 & a2 & -> & A1 & A2 & A3).
    elim (N' (CopyCode a1 a2) Eq). exists b1, b2. auto. }
  destruct (Z.eqb_spec (be sel) (selector f "swapCode(address,address)")) as [Eq|_].
  { unfold executeStateContractSwapCode. destruct (gas <? _); [reflexivity|]. destruct (Z.eqb_spec (zlen args) 64) as [L|]; [|reflexivity]. destruct (is_two args L) as (b1 & b2 & a1 & a2 & -> & A1 & A2 & A3).
    elim (N' (SwapCode a1 a2) Eq). exists b1, b2. auto. }
  destruct (Z.eqb_spec (be sel) (selector f "setStorage(address,bytes32,bytes32)")) as [Eq|_].
  { unfold executeStateContractSetStorage. destruct (gas <? _); [reflexivity|]. destruct (Z.eqb_spec (zlen args) 96) as [L|]; [|reflexivity].
    destruct (split_len args 32 64 ltac:(lia) ltac:(lia) L) as (b1 & rest & -> & M1 & M2). destruct (is_two rest M2) as (b2 & b3 & a1 & a2 & -> & A1 & A2 & A3).
    elim (N' (SetStorage (be (slice b1 12 20)) (be b2) (be b3)) Eq). exists b1, b2, b3. split; [reflexivity|]. split; [apply is_address; exact M1|]. split; [split; [exact (address_len _ _ A1)|reflexivity]|exact A3]. }
  destruct (Z.eqb_spec (be sel) (selector f "incNonce(address,uint256)")) as [Eq|_].
  { unfold executeStateContractIncNonce. destruct (gas <? _); [reflexivity|]. destruct (Z.eqb_spec (zlen args) 64) as [L|]; [|reflexivity]. destruct (is_two args L) as (b1 & b2 & a1 & a2 & -> & A1 & A2 & A3).
    elim (N' (IncNonce a1 (be b2)) Eq). exists b1, b2. auto. }
  reflexivity.
Qed.

(** ** Contracts *)
Theorem call_contract w r kind p w1 cr x : params_ok p -> 0 <= r_depth r <= 1024 -> is_create kind = false -> moved f w kind p = Some w1 ->
  cp_recipient p <> StateContractAddress -> fl_precompile f (fl_rev f (r_block r)) (cp_recipient p) = None ->
  (kind = GoCall -> x_account_exists ctx w1 (cp_recipient p) = true) ->
  reference mach0 (w1, deeper r (call_static r kind)) (fl_rev f (r_block r)) (code w (source kind p)) (call_message f r kind p (code w (source kind p)) (rc_code_hash rc w (source kind p))) = (cr, x) ->
  calls_to f w r kind p (call_answer cr 0) (match cr_status cr with EVMC_SUCCESS => fst x | _ => w end).
Proof.
  intros Hp Hd Hk Hm Hst Hpre Hex R. apply ref_to; [exact Hp|lia|]. unfold ref_call, Call. destruct (Z.ltb_spec MaxRecursiveDepth (r_depth r)) as [X|_]; [unfold MaxRecursiveDepth in X; lia|].
  destruct (call_code f w kind p) as [cd hash] eqn:Ec. unfold call_code in Ec. change (code_source kind p) with (source kind p) in Ec. rewrite Hk in *. cbn [andb] in *. injection Ec as <- <-.
  rewrite (moved_eq w kind p Hp), Hm.
  assert (E1 : handleStateContract f w1 (cp_sender p) (cp_recipient p) (cp_input p) (cp_gas p) = None).
  { unfold handleStateContract. apply Z.eqb_neq in Hst. rewrite Hst. reflexivity. }
  rewrite E1. unfold handlePrecompiledContract. rewrite Hpre.
  assert (E2 : match kind with GoCall => negb (x_account_exists ctx w1 (cp_recipient p)) | _ => false end = false).
  { destruct kind; try reflexivity. rewrite (Hex eq_refl). reflexivity. }
  rewrite E2. pose proof (proj2 (xo_code _ Hc w (source kind p))) as Lc. destruct (Z.ltb_spec (2 ^ 32) (zlen (code w (source kind p)))); [lia|].
  assert (Em : run_message f (deeper r (match kind with GoStaticCall => true | _ => r_static r end)) kind p (cp_recipient p) (code w (source kind p)) (rc_code_hash rc w (source kind p)) =
    call_message f r kind p (code w (source kind p)) (rc_code_hash rc w (source kind p))).
  { unfold run_message, call_message, message_of, deeper. cbn [p_static p_depth p_gas p_recipient p_sender p_input p_value p_code_hash r_depth r_static]. unfold call_static. f_equal; lia. }
  rewrite Em. unfold call_static in R. cbn [play]. rewrite R. unfold go_result_of, call_answer. destruct (cr_status cr); cbn [go_success negb go_output go_gas_left go_gas_refund]; apply done_call.
Qed.

(** ** Creations *)
Lemma new_address_eq w kind p : is_create kind = true -> cp_recipient p = 0 ->
  call_code f w kind p = (cp_input p, fl_keccak f (cp_input p)) /\ createAddress f kind (cp_sender p) (nonce w (cp_sender p)) (cp_salt p) (fl_keccak f (cp_input p)) = new_address f w kind p.
Proof. intros Hk Hr. unfold call_code. rewrite Hk, Hr. cbn [andb Z.eqb]. split; [reflexivity|]. destruct kind; try discriminate Hk; reflexivity. Qed.
Theorem create_taken w r kind p : params_ok p -> 0 <= r_depth r -> is_create kind = true -> cp_recipient p = 0 -> taken f w (new_address f w kind p) ->
  calls_to f w r kind p (Some no_result) w.
Proof.
  intros Hp Hd Hk Hr Ht. apply ref_to; [exact Hp|lia|]. unfold ref_call, Call. destruct (_ <? _); [apply done_call|].
  destruct (new_address_eq w kind p Hk Hr) as [-> E]. rewrite Hk, E. apply taken_collision in Ht. rewrite Ht. apply done_call.
Qed.
Lemma creation_run w r kind p res w' : params_ok p -> 0 <= r_depth r <= 1024 -> is_create kind = true -> cp_recipient p = 0 ->
  fl_precompile f (fl_rev f (r_block r)) (new_address f w kind p) = None -> ~ taken f w (new_address f w kind p) -> calls_to f w r kind p res w' ->
  (match res with Some res => gr_success res = false | None => True end /\ w' = registered f w (cp_sender p) (new_address f w kind p)) \/
  (res = Some no_result) \/
  (exists w1 out left refund, res = Some (mkCallResult out left refund (new_address f w kind p) true) /\ w' = x_set_code ctx w1 (new_address f w kind p) out /\
     zlen out <= 24576 /\ (rev_ge (fl_rev f (r_block r)) London = true -> forall b rest, out = b :: rest -> b <> 0xEF) /\ left + 200 * zlen out <= cp_gas p).
Proof.
  intros Hp Hd Hk Hr Hpre Hnt C. destruct (calls_ref f Hf _ _ _ _ _ _ Hp (proj1 Hd) C) as [R _]. clear C. revert R. unfold ref_call, Call.
  destruct (Z.ltb_spec MaxRecursiveDepth (r_depth r)) as [X|_]; [unfold MaxRecursiveDepth in X; lia|].
  destruct (new_address_eq w kind p Hk Hr) as [-> E]. rewrite Hk, E. set (c := new_address f w kind p) in *. cbn [andb].
  assert (Nc : collision f w c = false) by (destruct (collision f w c) eqn:X; [apply taken_collision in X; contradiction|reflexivity]). rewrite Nc.
  change (bump f w (cp_sender p) c) with (registered f w (cp_sender p) c). set (w0 := registered f w (cp_sender p) c).
  destruct (match kind with GoStaticCall | GoDelegateCall => Some w0 | _ => _ end) as [w1|]; [|rewrite done_call; intros X; injection X as <- <-; left; auto].
  assert (E1 : handleStateContract f w1 (cp_sender p) (cp_recipient p) (cp_input p) (cp_gas p) = None).
  { unfold handleStateContract. rewrite Hr. reflexivity. }
  rewrite E1. unfold handlePrecompiledContract. rewrite Hpre.
  assert (E2 : match kind with GoCall => negb (x_account_exists ctx w1 c) | _ => false end = false) by (destruct kind; try discriminate Hk; reflexivity). rewrite E2.
  destruct (Z.ltb_spec (2 ^ 32) (zlen (cp_input p))) as [|Hlen]; [rewrite done_call; intros X; injection X as <- <-; left; auto|].
  set (r' := deeper r _). set (m := run_message f r' kind p c _ _). set (rev := fl_rev f (r_block r)) in *.
  assert (Ac : is_addr c) by (unfold c, new_address; destruct kind; try discriminate Hk; [apply (fo_create _ Hf)|apply (fo_create2 _ Hf)]).
  assert (Gm : 0 <= cr_gas_left (fst (reference mach0 (w1, r') rev (cp_input p) m)) <= cp_gas p).
  { assert (He : exec_ok (fl_code_of f) (cp_input p) m).
    { assert (D1 : msg_depth m = r_depth r) by (unfold m, r'; cbn [run_message message_of msg_depth p_depth deeper r_depth]; lia). destruct Hp as [P1 P2 P3 P4 P5 P6].
      split; [split|..].
      - cbn [m run_message message_of msg_flags p_static]. destruct (r_static r'); unfold EVMC_STATIC; lia.
      - rewrite D1. change (2 ^ 31) with 2147483648. lia.
      - change (- 2 ^ 63) with (-9223372036854775808). change (msg_gas m) with (cp_gas p). lia.
      - exact Ac.
      - exact P1.
      - exact P4.
      - exact P5.
      - exact P3.
      - rewrite D1. apply Hd.
      - exact P4.
      - exact Hlen.
      - intros h Eh _. cbn [m run_message message_of msg_code_hash p_code_hash] in Eh. destruct (list_eq_dec _ _ _) as [Eq|]; [|discriminate]. injection Eh as <-. exact Eq. }
    destruct (reference_contract mach0 (machine_ok f Hf fb0 tick0 bufs0 rest0_ok) (w1, r') rev (cp_input p) m He) as [A _ _].
    change (msg_gas m) with (cp_gas p) in A. pose proof (po_gas _ Hp). lia. }
  cbn [play]. destruct (reference mach0 (w1, r') rev (cp_input p) m) as [cr x]. cbn [fst] in Gm.
  destruct (go_result_of cr) as [g|e] eqn:Eg; [|rewrite done_call; intros X; injection X as <- <-; left; auto].
  destruct (go_success g) eqn:Es; cbn [negb]; [|rewrite done_call; intros X; injection X as <- <-; left; auto].
  assert (Gg : go_gas_left g = cr_gas_left cr) by (unfold go_result_of in Eg; destruct (cr_status cr); try discriminate Eg; injection Eg as <-; try reflexivity; discriminate Es).
  unfold deployed. change maxCodeSize with 24576. change createGasCostPerByte with 200.
  destruct (Z.ltb_spec 24576 (zlen (go_output g))); [rewrite done_call; intros X; injection X as <- <-; auto|].
  destruct (rev_ge rev London && (0 <? zlen (go_output g)) && (data_at (go_output g) 0 =? 0xEF)) eqn:Eef; [rewrite done_call; intros X; injection X as <- <-; auto|].
  destruct (Z.ltb_spec (go_gas_left g) (zlen (go_output g) * 200)); [rewrite done_call; intros X; injection X as <- <-; auto|].
  rewrite done_call. intros X. injection X as <- <-. right. right. exists (fst x), (go_output g), (go_gas_left g - zlen (go_output g) * 200), (go_gas_refund g).
  split; [reflexivity|]. split; [reflexivity|]. split; [assumption|]. split; [|lia].
  intros Hl b rest Eo. rewrite Hl, Eo in Eef. cbn [andb] in Eef. intros ->. assert (Lp : 0 < zlen (239 :: rest)) by (rewrite zlen_cons; pose proof (zlen_nonneg rest); lia).
  apply Z.ltb_lt in Lp. rewrite Lp in Eef. discriminate Eef.
Qed.
Theorem creation w r kind p res w' : params_ok p -> 0 <= r_depth r <= 1024 -> is_create kind = true -> cp_recipient p = 0 ->
  fl_precompile f (fl_rev f (r_block r)) (new_address f w kind p) = None -> ~ taken f w (new_address f w kind p) -> calls_to f w r kind p res w' ->
  match res with
  | Some res =>
    if gr_success res
    then gr_created res = new_address f w kind p /\ code w' (new_address f w kind p) = gr_output res /\ zlen (gr_output res) <= 24576 /\
      (rev_ge (fl_rev f (r_block r)) London = true -> forall b rest, gr_output res = b :: rest -> b <> 0xEF) /\ gr_gas_left res + 200 * zlen (gr_output res) <= cp_gas p
    else 0 < gr_gas_left res -> w' = registered f w (cp_sender p) (new_address f w kind p)
  | None => w' = registered f w (cp_sender p) (new_address f w kind p)
  end.
Proof.
  intros Hp Hd Hk Hr Hpre Hnt C. destruct (calls_ref f Hf _ _ _ _ _ _ Hp (proj1 Hd) C) as [_ Ok].
  destruct (creation_run w r kind p res w' Hp Hd Hk Hr Hpre Hnt C) as [[F ->]|[-> |(w1 & out & left & refund & -> & -> & L1 & L2 & L3)]].
  - destruct res as [res|]; [rewrite F|]; auto.
  - cbn. lia.
  - cbn [gr_success gr_created gr_output gr_gas_left]. split; [reflexivity|]. split; [|auto]. apply (xo_set_code _ Hc); [apply Ok|]. assert (24576 <= 2 ^ 32) by (cbv; discriminate). lia.
Qed.

(** ** Static calls *)
Theorem static_call_still P w r p res w' : still f P -> params_ok p -> 0 <= r_depth r -> cp_sender p <> DriverAddress -> P w -> calls_to f w r GoStaticCall p res w' -> P w'.
Proof.
  intros HS Hp Hd Hs Hw C. destruct (calls_ref f Hf _ _ _ _ _ _ Hp Hd C) as [R _].
  replace w' with (snd (ref_call f w r GoStaticCall p)) by (rewrite R; reflexivity). unfold ref_call.
  assert (X : (fun x : WW => P (fst x)) (snd (play (reference mach0) (Call f r w GoStaticCall p (fun res w => Done (cresult_of res) (w, r)))))).
  { apply (play_every (E_still P) (fun x => P (fst x))).
    - intros x rev cd m He. split; [|apply reference_context]. exact (eval_still f P HS fb0 (S levels) x rev cd m He).
    - apply (Call_still f P HS); auto; try (intros X; discriminate X).
      + intros [X|X]; discriminate X.
      + intros res0 w0 Hw0. apply ev_done. exact Hw0. }
  destruct (play (reference mach0) _) as [cr x]. exact X.
Qed.
End TxFacts5.
