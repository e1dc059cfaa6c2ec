(** The rules of the conformance tests describe the EVM: calls. *)
From Verif Require Import Base Host Uint256 SpecEvm SpecVm ArithFacts MemFacts JumpFacts GoAdapter GoStorage LfvmCode Lfvm LfvmSim LfvmOps SpecLfvm SpecFacts Ct SpecCt PropFacts2 CtRules SpecRules CtRuleFacts CtMemFacts CtSound CtSound2 CtSound3 CtSound4 CtSound5 CtSound6.
From Coq Require Import Lia ZArith List Bool.
Import ListNotations.
Open Scope Z_scope.

(** ** Sums of fees *)
Definition zsum (l : list Z) : Z := fold_right Z.add 0 l.
Lemma zsum_nonneg l : Forall (fun x => 0 <= x < 2 ^ 63) l -> 0 <= zsum l.
Proof. unfold zsum. induction 1 as [|x l h1 h2 ih]; cbn [fold_right]; lia. Qed.
Lemma sum_ok l : forall r, 0 <= r < 2 ^ 63 -> Forall (fun x => 0 <= x < 2 ^ 63) l -> sumWithOverflow r l = if r + zsum l <? 2 ^ 63 then Some (r + zsum l) else None.
Proof.
  induction l as [|x l ih]; intros r hr hl; unfold zsum; cbn [fold_right sumWithOverflow].
  - rewrite Z.add_0_r. destruct (Z.ltb_spec r (2 ^ 63)); [reflexivity|lia].
  - fold (zsum l). apply Forall_cons_iff in hl. destruct hl as [hx hl]. pose proof (zsum_nonneg l hl) as hs. destruct (Z_lt_ge_dec (r + x) (2 ^ 63)) as [hlt|hge].
    + rewrite s64_small by lia. destruct (Z.ltb_spec (r + x) r); [lia|]. rewrite ih by (assumption || lia). rewrite <- Z.add_assoc. reflexivity.
    + assert (e2 : s64 (r + x) = r + x - 2 ^ 64). { unfold s64. rewrite Z.mod_small by lia. cbv zeta. destruct (Z.ltb_spec (r + x) (2 ^ 63)); lia. }
      rewrite e2. destruct (Z.ltb_spec (r + x - 2 ^ 64) r); [|lia]. destruct (Z.ltb_spec (r + (x + zsum l)) (2 ^ 63)); [lia|reflexivity].
Qed.
(** the expansion for two areas costs as much as the more expensive one *)
Lemma expand_two a o1 n1 o2 n2 : 0 <= a -> Gmem (expand (expand a o1 n1) o2 n2) - Gmem a = Z.max (Gmem (expand a o1 n1) - Gmem a) (Gmem (expand a o2 n2) - Gmem a).
Proof.
  intros ha. assert (m : forall x y, 0 <= x -> 0 <= y -> Gmem (Z.max x y) = Z.max (Gmem x) (Gmem y)).
  { intros x y hx hy. destruct (Z_le_gt_dec x y); [rewrite (Z.max_r x y) by lia; pose proof (Gmem_mono x y ltac:(lia)); lia|rewrite (Z.max_l x y) by lia; pose proof (Gmem_mono y x ltac:(lia)); lia]. }
  assert (e : expand (expand a o1 n1) o2 n2 = Z.max (expand a o1 n1) (expand a o2 n2)). { pose proof (expand_ge a o1 n1). unfold expand in *. destruct (n1 =? 0), (n2 =? 0); lia. }
  pose proof (expand_ge a o1 n1). pose proof (expand_ge a o2 n2). rewrite e, m by lia. lia.
Qed.
Lemma grow_same m off n : 0 <= off + n < 2 ^ 64 -> off + n <= zlen m -> Grow off n m = m.
Proof. intros h1 h2. unfold Grow. destruct (n =? 0); [reflexivity|]. rewrite u64_small by lia. destruct (Z.ltb_spec (zlen m) (off + n)); [lia|reflexivity]. Qed.
Lemma expand_same a off n k : n <= k -> 0 <= n -> a = expand a off k -> 0 <= off -> expand a off n = a.
Proof.
  intros h1 h2 e ho. unfold expand in *. destruct (Z.eqb_spec n 0); [reflexivity|]. destruct (Z.eqb_spec k 0); [lia|]. pose proof (words_le (off + n) (off + k) ltac:(lia)). lia.
Qed.
Lemma expand_twice a off n : expand (expand a off n) off n = expand a off n.
Proof. unfold expand. destruct (n =? 0); [reflexivity|]. lia. Qed.

Section Sound.
Variable tx : tx_context.
Variable keccak hash : list Z -> Z.
Notation H := (go_host (ct_rc tx) tx).
Notation call := (answers ct_Call).
Notation msg_of b := (message_of (ToVmParameters hash b)).
Notation Step := (Step tx keccak hash).
Notation Exec := (Exec tx keccak hash).
Notation rule_ok := (rule_ok tx keccak hash).
Notation holds := (holds tx).

Definition opk (k : call_kind) : SpecEvm.call_op := match k with CALL => OpCall | CALLCODE => OpCallCode | STATICCALL => OpStaticCall | DELEGATECALL => OpDelegateCall end.
(** [q_call] when the fees have been paid *)
Definition q_tail (b : state) (k : SpecEvm.call_op) (f4 : frame ctw) (greq addr value ioff isz ooff osz : Z) (s : list Z) : request :=
    let transfers := negb (value =? 0) in
    let avail := f_gas f4 in
    let fwd := Z.min greq (all_but_64th avail) in
    let stipend := if transfers then 2300 else 0 in
    if transfers && (h_get_balance H (f_world f4) (self (msg_of b)) <? value)
    then Now (yield (0 :: s) (with_gas (avail + stipend) f4))
    else
      let m := mkMsg
        (match k with OpDelegateCall => K_DELEGATECALL | OpCallCode => K_CALLCODE | _ => K_CALL end)
        (match k with OpStaticCall => EVMC_STATIC | _ => msg_flags (msg_of b) end)
        (msg_depth (msg_of b) + 1)
        (fwd + stipend)
        (match k with OpCall | OpStaticCall => addr | _ => self (msg_of b) end)
        (match k with OpDelegateCall => msg_sender (msg_of b) | _ => self (msg_of b) end)
        (read_bytes (f_mem f4) ioff isz)
        (match k with OpDelegateCall => msg_value (msg_of b) | _ => value end)
        0 addr None in
      Ask (f_world f4) m (fun r w =>
      let out := cr_output r in
      let f5 := with_world w (add_refund (cr_gas_refund r) (with_gas (avail - fwd + cr_gas_left r) f4)) in
      let f6 := with_ret out (with_mem (write_bytes (f_mem f5) ooff (firstn (Z.to_nat (Z.min osz (zlen out))) out)) f5) in
      yield (bool_word (Host.status_eqb (cr_status r) EVMC_SUCCESS) :: s) f6).
(** [q_call] when the arguments have been taken from the stack *)
Definition q_go (b : state) (rv : revision) (k : SpecEvm.call_op) (f : frame ctw) (greq a value ioff isz ooff osz : Z) (s : list Z) : request :=
    let addr := addr_of a in
    let transfers := negb (value =? 0) in
    if 1024 <? msg_depth (msg_of b) then Now (Fail CallDepth f)
    else
    let act := expand (expand (f_active f) ioff isz) ooff osz in
    q_charge (Gmem act - Gmem (f_active f)) f (fun f1 =>
    if match k with OpCall => transfers && static (msg_of b) | _ => false end then Now (Fail StaticViolation f)
    else
    let '(c, f2) := account_cost H rv f1 addr in
    let new_account := match k with OpCall => transfers && negb (h_account_exists H (f_world f2) addr) | _ => false end in
    q_charge (c + (if transfers then 9000 else 0) + (if new_account then 25000 else 0)) f2 (fun f3 =>
    q_tail b k (with_ret [] (with_active act f3)) greq addr value ioff isz ooff osz s)).
Lemma q_value b rv k (f : frame ctw) g a v io is oo os s : takes_value k = true -> f_stack f = g :: a :: v :: io :: is :: oo :: os :: s -> i_call H call (msg_of b) rv (opk k) f = answer call (q_go b rv (opk k) f g a v io is oo os s).
Proof. intros hk hs. unfold i_call, q_call. rewrite hs. destruct k; try discriminate; reflexivity. Qed.
Lemma q_plain b rv k (f : frame ctw) g a io is oo os s : takes_value k = false -> f_stack f = g :: a :: io :: is :: oo :: os :: s -> i_call H call (msg_of b) rv (opk k) f = answer call (q_go b rv (opk k) f g a 0 io is oo os s).
Proof. intros hk hs. unfold i_call, q_call. rewrite hs. destruct k; try discriminate; reflexivity. Qed.
Lemma call_exec b rv k f : Exec b rv (call_op k) f = i_call H call (msg_of b) rv (opk k) f.
Proof. destruct k; reflexivity. Qed.
(** [callEffect] when the fees have been paid *)
Definition effect_tail (op : call_kind) (gas target value argsOffset argsSize retOffset retSize : Z) (s : state) : res state :=
    let isValueZero := value =? 0 in
    let limit := ct_gas s - Z.quot (ct_gas s) 64 in
    let endowment := if isUint64 gas && (gas <? u64 limit) then s64 gas else limit in
    let stipend := if isValueZero then 0 else 2300 in
    let s := set_gas (s64 (ct_gas s + stipend)) s in
    do! '(input, s) <- Read argsOffset argsSize s;
    if negb isValueZero && (GetBalance (ct_world s) (ct_self s) <? value) then Ok (set_last [] (push 0 s))
    else
      let sender := match op with DELEGATECALL => ct_caller s | _ => ct_self s end in
      let recipient := match op with DELEGATECALL | CALLCODE => ct_self s | _ => bytes20 target end in
      let value := match op with DELEGATECALL => ct_value s | _ => value end in
      let kind := match op with
                  | DELEGATECALL => GoDelegateCall
                  | CALLCODE => GoCallCode
                  | STATICCALL => GoStaticCall
                  | CALL => if ct_readonly s then GoStaticCall else GoCall
                  end in
      let '(res, w) := JournalCall kind (mkCallParams sender recipient value input (s64 (endowment + stipend)) 0 (bytes20 target)) (ct_world s) in
      let s := set_world w s in
      do! s <- (if 0 <? retSize then Write (if retSize <? zlen (gr_output res) then firstn (Z.to_nat retSize) (gr_output res) else gr_output res) retOffset s else Ok s);
      let s := set_gas (s64 (ct_gas s - (s64 (endowment + stipend) - gr_gas_left res))) s in
      let s := set_refund (s64 (ct_refund s + gr_gas_refund res)) s in
      Ok (push (if gr_success res then 1 else 0) (set_last (gr_output res) s)).
(** [callEffect] when the arguments have been taken from the stack *)
Definition effect_go (addrAccessCost : Z) (op : call_kind) (gas target value argsOffset argsSize retOffset retSize : Z) (s : state) : res state :=
  let '(inCost, argsOffset, argsSize) := ExpansionCosts argsOffset argsSize (ct_mem s) in
  let '(outCost, retOffset, retSize) := ExpansionCosts retOffset retSize (ct_mem s) in
  let memoryExpansionCost := if inCost <? outCost then outCost else inCost in
  let isValueZero := value =? 0 in
  let positiveValueCost := if isValueZero then 0 else 9000 in
  let emptyCost := if negb isValueZero && AccIsEmpty (ct_world s) (bytes20 target) && negb (match op with CALLCODE => true | _ => false end) then 25000 else 0 in
  match sumWithOverflow 0 [memoryExpansionCost; positiveValueCost; emptyCost; addrAccessCost] with
  | None => failed s
  | Some dynamicGas => pay dynamicGas s (fun s =>
    let s := if 1 <=? ct_revision s then set_world (AccMarkWarm (bytes20 target) (ct_world s)) s else s in
    let s := set_mem (Grow retOffset retSize (Grow argsOffset argsSize (ct_mem s))) s in
    effect_tail op gas target value argsOffset argsSize retOffset retSize s)
  end.
Lemma effect_value ac k b pc gs rf g a v io is oo os st m last w : takes_value k = true ->
  callEffect ac k (mk b pc gs rf (g :: a :: v :: io :: is :: oo :: os :: st) m last w) = effect_go ac k g a v io is oo os (mk b pc gs rf st m last w).
Proof. intros hk. unfold callEffect. rewrite hk. states. reflexivity. Qed.
Lemma effect_plain ac k b pc gs rf g a io is oo os st m last w : takes_value k = false ->
  callEffect ac k (mk b pc gs rf (g :: a :: io :: is :: oo :: os :: st) m last w) = effect_go ac k g a 0 io is oo os (mk b pc gs rf st m last w).
Proof. intros hk. unfold callEffect. rewrite hk. states. reflexivity. Qed.

Definition access_fee (b : state) (a : Z) : Z := if ct_revision b =? 0 then 700 else if AccIsWarm (ct_world b) a then 100 else 2600.
Definition new_fee (b : state) (k : call_kind) (a value : Z) : Z := match k with CALL => if negb (value =? 0) && AccIsEmpty (ct_world b) a then 25000 else 0 | _ => 0 end.
Definition call_fee (b : state) (k : call_kind) (a value io is oo os : Z) : Z :=
  (Gmem (expand (expand (zlen (ct_mem b)) io is) oo os) - Gmem (zlen (ct_mem b))) + (access_fee b a + (if negb (value =? 0) then 9000 else 0) + new_fee b k a value).
Definition world_at (b : state) (a : Z) : ctw := if ct_revision b =? 0 then ct_world b else AccMarkWarm a (ct_world b).
Lemma tail_evm b k full greq a value io is oo os st act g w : GetBalance w (ct_self b) = GetBalance (ct_world b) (ct_self b) ->
  answer call (q_tail b (opk k) (mkFrame (ct_pc b) g full (data_at (ct_mem b)) act [] (ct_refund b) w) greq (bytes20 a) value io is oo os st) =
    let stipend := if negb (value =? 0) then 2300 else 0 in
    let fwd := Z.min greq (all_but_64th g) in
    if negb (value =? 0) && (GetBalance (ct_world b) (ct_self b) <? value) then Next (mkFrame (ct_pc b + 1) (g + stipend) (0 :: st) (data_at (ct_mem b)) act [] (ct_refund b) w)
    else
      let kind := match k with DELEGATECALL => GoDelegateCall | CALLCODE => GoCallCode | STATICCALL => GoStaticCall | CALL => if ct_readonly b then GoStaticCall else GoCall end in
      let '(r, w') := JournalCall kind (mkCallParams (match k with DELEGATECALL => ct_caller b | _ => ct_self b end) (match k with DELEGATECALL | CALLCODE => ct_self b | _ => bytes20 a end)
         (match k with DELEGATECALL => ct_value b | _ => value end) (read_bytes (data_at (ct_mem b)) io is) (fwd + stipend) 0 (bytes20 a)) w in
      Next (mkFrame (ct_pc b + 1) (g - fwd + gr_gas_left r) ((if gr_success r then 1 else 0) :: st)
        (write_bytes (data_at (ct_mem b)) oo (firstn (Z.to_nat (Z.min os (zlen (gr_output r)))) (gr_output r))) act (gr_output r) (ct_refund b + gr_gas_refund r) w').
Proof.
  intros hb. unfold q_tail. cbv zeta. cbn [f_world f_gas f_mem f_active f_ret f_refund f_pc f_stack]. change (h_get_balance H w (self (msg_of b))) with (GetBalance w (ct_self b)). rewrite hb.
  destruct (negb (value =? 0) && (GetBalance (ct_world b) (ct_self b) <? value)); [reflexivity|]. cbn [answer]. unfold answers, ct_Call.
  match goal with |- (let '(r, w') := (let '(_, _) := (let '(_, _) := JournalCall ?k1 ?p1 ?w1 in _) in _) in _) = (let '(_, _) := JournalCall ?k2 ?p2 ?w1 in _) => assert (ek : k1 = k2); [|assert (ep : p1 = p2); [|rewrite ek, ep; destruct (JournalCall k2 p2 w1) as [r w']]] end.
  - destruct k; cbn [opk go_kind_of msg_kind msg_flags]; try reflexivity. change (msg_flags (msg_of b)) with (if ct_readonly b then 1 else 0). destruct (ct_readonly b); reflexivity.
  - destruct k; reflexivity.
  - cbn [cresult_of cr_output cr_status cr_gas_left cr_gas_refund]. destruct (gr_success r); reflexivity.
Qed.
Lemma two_ways {A} (R : A) (P : Prop) (Q : A -> Prop) (P2 : Prop) X : (exists R', R = R' /\ (P -> Q R') /\ (P2 -> R' = X)) -> (P -> Q R) /\ (P2 -> R = X).
Proof. intros (R' & -> & h). exact h. Qed.
(** what the EVM does, up to the call *)
Lemma call_evm b rv k full greq a value io is oo os st : ctx_ok b rv full -> (k = CALL -> value <> 0 -> ct_readonly b = false) ->
  let act := expand (expand (zlen (ct_mem b)) io is) oo os in
  let g := ct_gas b - call_fee b k (bytes20 a) value io is oo os in
  let w := world_at b (bytes20 a) in
  (g < 0 -> exists e f, answer call (q_go b rv (opk k) (Paid b full 0) greq a value io is oo os st) = Fail e f) /\
  (0 <= g -> answer call (q_go b rv (opk k) (Paid b full 0) greq a value io is oo os st) =
    answer call (q_tail b (opk k) (mkFrame (ct_pc b) g full (data_at (ct_mem b)) act [] (ct_refund b) w) greq (bytes20 a) value io is oo os st)).
Proof.
  intros co hst. cbv zeta. match goal with |- (?P -> exists e f, ?R = Fail e f) /\ (?P2 -> _ = ?X) => apply (two_ways R P (fun R0 => exists e f, R0 = Fail e f) P2 X) end. set (act := expand (expand (zlen (ct_mem b)) io is) oo os). set (mf := Gmem act - Gmem (zlen (ct_mem b))).
  assert (hmf : 0 <= mf). { unfold mf, act. pose proof (zlen_nonneg (ct_mem b)). rewrite expand_two by lia. pose proof (expand_fee (zlen (ct_mem b)) io is ltac:(lia)). lia. }
  unfold q_go. change (msg_depth (msg_of b)) with 0. cbn [Z.ltb Z.compare]. change (addr_of a) with (bytes20 a). cbn [Paid f_active]. fold act. fold mf. unfold call_fee. fold act. fold mf.
  assert (hacc : 0 <= access_fee b (bytes20 a)) by (unfold access_fee; destruct (ct_revision b =? 0), (AccIsWarm (ct_world b) (bytes20 a)); lia).
  assert (hnew : 0 <= new_fee b k (bytes20 a) value) by (unfold new_fee; destruct k; try lia; destruct (negb (value =? 0) && AccIsEmpty (ct_world b) (bytes20 a)); lia).
  assert (hval : 0 <= if negb (value =? 0) then 9000 else 0) by (destruct (value =? 0); cbn; lia).
  fold (Paid b full 0). unfold q_charge at 1. assert (e0 : f_gas (Paid b full 0) = ct_gas b) by (cbn; lia). rewrite e0.
  assert (estat : match opk k with OpCall => negb (value =? 0) && static (msg_of b) | _ => false end = false).
  { destruct k; try reflexivity. cbn [opk]. rewrite static_of. destruct (Z.eqb_spec value 0) as [|hv]; [reflexivity|]. rewrite (hst eq_refl hv). reflexivity. } rewrite estat.
  destruct (Z.ltb_spec (ct_gas b) mf) as [hl|hl]; [eexists; split; [reflexivity|]; split; [intros; eexists _, _; reflexivity|intros; lia]|].
  change (with_gas (ct_gas b - mf) (Paid b full 0)) with (Paid b full mf). rewrite (account_price tx b rv _ _ _ (co_rev _ _ _ co)). fold (access_fee b (bytes20 a)).
  assert (enew : (if match opk k with OpCall => negb (value =? 0) && negb (h_account_exists H (f_world (if ct_revision b =? 0 then Paid b full mf else with_world (AccMarkWarm (bytes20 a) (ct_world b)) (Paid b full mf))) (bytes20 a)) | _ => false end then 25000 else 0) = new_fee b k (bytes20 a) value).
  { unfold new_fee. destruct k; try reflexivity. cbn [opk h_account_exists go_host]. rewrite negb_involutive, empty_eq. destruct (ct_revision b =? 0); reflexivity. } rewrite enew. unfold q_charge.
  assert (eg : f_gas (if ct_revision b =? 0 then Paid b full mf else with_world (AccMarkWarm (bytes20 a) (ct_world b)) (Paid b full mf)) = ct_gas b - mf) by (destruct (ct_revision b =? 0); reflexivity). rewrite eg.
  destruct (Z.ltb_spec (ct_gas b - mf) (access_fee b (bytes20 a) + (if negb (value =? 0) then 9000 else 0) + new_fee b k (bytes20 a) value)) as [h2|h2]; [eexists; split; [reflexivity|]; split; [intros; eexists _, _; reflexivity|intros; lia]|]. eexists; split; [reflexivity|]. split; [intros; lia|]. intros hg.
  set (g := ct_gas b - (mf + (access_fee b (bytes20 a) + (if negb (value =? 0) then 9000 else 0) + new_fee b k (bytes20 a) value))) in *.
  replace (ct_gas b - mf - (access_fee b (bytes20 a) + (if negb (value =? 0) then 9000 else 0) + new_fee b k (bytes20 a) value)) with g by (unfold g; lia).
  replace (with_ret [] (with_active act (with_gas g (if ct_revision b =? 0 then Paid b full mf else with_world (AccMarkWarm (bytes20 a) (ct_world b)) (Paid b full mf))))) with
    (mkFrame (ct_pc b) g full (data_at (ct_mem b)) act [] (ct_refund b) (world_at b (bytes20 a))) by (unfold world_at; destruct (ct_revision b =? 0); reflexivity).
  reflexivity.
Qed.

Lemma future_ok b c l : test_state b -> w_future (ct_world b) = c :: l -> 0 <= fc_costs c < 2 ^ 63 /\ Z.abs (fc_refund c) <= 2 ^ 62 /\ Forall is_byte (fc_output c).
Proof. intros ht e. pose proof (wok_future _ (tst_world b ht)) as h. rewrite e in h. apply Forall_cons_iff in h. apply h. Qed.
Lemma journal_ok b kind p w : test_state b -> w_future w = w_future (ct_world b) -> 0 <= cp_gas p < 2 ^ 63 ->
  let r := fst (JournalCall kind p w) in 0 <= gr_gas_left r <= cp_gas p /\ Z.abs (gr_gas_refund r) <= 2 ^ 62 /\ Forall is_byte (gr_output r).
Proof.
  intros ht ew hp. cbv zeta. unfold JournalCall. cbn [fst gr_gas_left gr_gas_refund gr_output]. rewrite ew.
  assert (h : let c := match w_future (ct_world b) with [] => mkFuture false [] 0 0 0 | r :: _ => r end in 0 <= fc_costs c < 2 ^ 63 /\ Z.abs (fc_refund c) <= 2 ^ 62 /\ Forall is_byte (fc_output c)).
  { cbv zeta. destruct (w_future (ct_world b)) as [|c l] eqn:e; [cbn; repeat split; try lia; constructor|]. apply (future_ok b c l ht e). }
  cbv zeta in h. set (c := match w_future (ct_world b) with [] => mkFuture false [] 0 0 0 | r :: _ => r end) in *. destruct h as (h1 & h2 & h3). split; [|split; assumption].
  destruct (Z.ltb_spec (cp_gas p) (fc_costs c)); [lia|]. rewrite s64_small by lia. lia.
Qed.
Lemma tail_ok b k greq a value io is oo os io' oo' pc st st2 m2 g w last act : test_state b -> 0 <= ct_pc b -> pc = ct_pc b + 1 -> mem_rel m2 (data_at (ct_mem b)) act -> 0 <= act < 2 ^ 37 -> is_word greq ->
  0 <= is < 2 ^ 37 -> 0 <= os < 2 ^ 37 -> (is <> 0 -> io' = io /\ 0 <= io /\ io + is <= act) -> (os <> 0 -> oo' = oo /\ 0 <= oo /\ oo + os <= act) ->
  0 <= g < 2 ^ 54 -> w_future w = w_future (ct_world b) -> GetBalance w (ct_self b) = GetBalance (ct_world b) (ct_self b) -> g <= ct_gas b ->
  agrees b (effect_tail k greq a value io' is oo' os (mk b pc g (ct_refund b) st m2 last w))
    (answer call (q_tail b (opk k) (mkFrame (ct_pc b) g st2 (data_at (ct_mem b)) act [] (ct_refund b) w) greq (bytes20 a) value io is oo os st)).
Proof.
  intros ht hpc0 -> hm hact hgr his hos hio hoo hg hfut hbal hgle. rewrite tail_evm by exact hbal. cbv zeta. unfold effect_tail. cbv zeta. rewrite !mk_gas.
  set (stip := if value =? 0 then 0 else 2300). assert (estip : (if negb (value =? 0) then 2300 else 0) = stip) by (unfold stip; destruct (value =? 0); reflexivity). rewrite estip. assert (hstip : 0 <= stip <= 2300) by (unfold stip; destruct (value =? 0); lia).
  assert (equot : Z.quot g 64 = g / 64) by (apply Z.quot_div_nonneg; lia). rewrite equot. fold (all_but_64th g). assert (hlim : 0 <= all_but_64th g <= g) by (unfold all_but_64th; pose proof (Z.div_pos g 64 ltac:(lia) ltac:(lia)); pose proof (Z.div_le_upper_bound g 64 g ltac:(lia) ltac:(lia)); lia).
  assert (eend : (if isUint64 greq && (greq <? u64 (all_but_64th g)) then s64 greq else all_but_64th g) = Z.min greq (all_but_64th g)).
  { unfold is_word in hgr. rewrite u64_small by lia. unfold isUint64. destruct (Z.ltb_spec greq (2 ^ 64)); cbn [andb]; [|lia]. destruct (Z.ltb_spec greq (all_but_64th g)); [rewrite s64_small by lia|]; lia. }
  rewrite eend. set (fwd := Z.min greq (all_but_64th g)). assert (hfwd : 0 <= fwd <= all_but_64th g) by (unfold fwd, is_word in *; lia). rewrite (s64_small (g + stip)) by lia. rewrite mk_set_gas.
  assert (hrd : Read io' is (mk b (ct_pc b + 1) (g + stip) (ct_refund b) st m2 last w) = Ok (read_bytes (data_at (ct_mem b)) io is, mk b (ct_pc b + 1) (g + stip) (ct_refund b) st m2 last w)).
  { destruct (Z.eq_dec is 0) as [-> |hz]; [reflexivity|]. destruct (hio hz) as (-> & k1 & k2). rewrite (read_ok _ _ _ _ _ _ _ _ _ _ _ _ hm hact) by lia. rewrite grow_same; [reflexivity|lia|rewrite (mr_size _ _ _ hm); lia]. }
  rewrite hrd. clear hrd. cbn [rbind]. rewrite mk_world, mk_selfa, hbal. destruct (negb (value =? 0) && (GetBalance (ct_world b) (ct_self b) <? value)).
  { rewrite mk_push, mk_set_last. apply agrees_next. exact hm. }
  rewrite (s64_small (fwd + stip)) by lia. rewrite mk_caller, mk_value, mk_readonly.
  match goal with |- agrees b (let '(_, _) := JournalCall ?k1 ?p1 ?w1 in _) _ => set (K := k1); set (P := p1) end.
  pose proof (journal_ok b K P w ht hfut ltac:(cbn [P cp_gas]; lia)) as hj. destruct (JournalCall K P w) as [r w']. cbv zeta in hj. cbn [fst cp_gas P] in hj. destruct hj as (hj1 & hj2 & hj3). rewrite mk_set_world.
  pose proof (ctk_refund b (tst_ok b ht)) as hr0. pose proof (ctk_gas b (tst_ok b ht)) as hg0.
  set (out := firstn (Z.to_nat (Z.min os (zlen (gr_output r)))) (gr_output r)). pose proof (zlen_nonneg (gr_output r)) as hlo.
  assert (hout : zlen out = Z.min os (zlen (gr_output r))) by (unfold out; unfold zlen in *; rewrite firstn_length; lia).
  assert (hw : exists m3, (if 0 <? os then Write (if os <? zlen (gr_output r) then firstn (Z.to_nat os) (gr_output r) else gr_output r) oo' (mk b (ct_pc b + 1) (g + stip) (ct_refund b) st m2 last w') else Ok (mk b (ct_pc b + 1) (g + stip) (ct_refund b) st m2 last w')) =
     Ok (mk b (ct_pc b + 1) (g + stip) (ct_refund b) st m3 last w') /\ mem_rel m3 (write_bytes (data_at (ct_mem b)) oo out) act).
  { destruct (Z.ltb_spec 0 os) as [ho|ho].
    - destruct (hoo ltac:(lia)) as (-> & k1 & k2). assert (eo : (if os <? zlen (gr_output r) then firstn (Z.to_nat os) (gr_output r) else gr_output r) = out).
      { unfold out. destruct (Z.ltb_spec os (zlen (gr_output r))); [rewrite Z.min_l by lia; reflexivity|]. rewrite Z.min_r by lia. symmetry. apply firstn_all2. unfold zlen in *. lia. }
      rewrite eo. destruct (write_ok b (ct_pc b + 1) (g + stip) (ct_refund b) st m2 last w' _ _ oo out hm hact) as (m3 & e3 & h3); [apply Forall_firstn'; exact hj3|rewrite hout; lia|].
      exists m3. split; [exact e3|]. replace act with (expand act oo (zlen out)); [exact h3|]. unfold expand. destruct (Z.eqb_spec (zlen out) 0); [reflexivity|]. apply Z.max_l. rewrite (mr_words _ _ _ hm). apply Z.mul_le_mono_nonneg_l; [lia|]. apply words_le. lia.
    - exists m2. split; [reflexivity|]. assert (e0 : out = []) by (apply zlen_0_nil; lia). rewrite e0. apply (mem_rel_ext m2 (data_at (ct_mem b))); [exact hm|]. intros i. symmetry. apply write_bytes_nil. }
  destruct hw as (m3 & -> & hm3). cbn [rbind]. rewrite mk_gas, mk_set_gas, mk_refund, mk_set_refund, mk_set_last, mk_push.
  rewrite (s64_small (g + stip - _)) by lia. assert (er : s64 (ct_refund b + gr_gas_refund r) = ct_refund b + gr_gas_refund r) by (apply s64_id; lia). rewrite er.
  replace (g + stip - (fwd + stip - gr_gas_left r)) with (g - fwd + gr_gas_left r) by lia. apply agrees_next. exact hm3.
Qed.

Lemma call_go b rv k full greq a value io is oo os st sg ac : ctx_ok b rv full -> (k = CALL -> value <> 0 -> ct_readonly b = false) -> (takes_value k = false -> value = 0) ->
  is_word greq -> is_word io -> is_word is -> is_word oo -> is_word os -> 0 <= sg <= ct_gas b -> 0 <= ac <= 2600 -> sg + ac = access_fee b (bytes20 a) ->
  agrees b (effect_go ac k greq a value io is oo os (mk b (ct_pc b + 1) (ct_gas b - sg) (ct_refund b) st (ct_mem b) (ct_last b) (ct_world b)))
    (answer call (q_go b rv (opk k) (Paid b full 0) greq a value io is oo os st)).
Proof.
  intros co hst hv0 hw1 hw2 hw3 hw4 hw5 hsg hac eac. pose proof (co_gas_small _ _ _ co) as hgs. pose proof (co_gas _ _ _ co) as hg0. pose proof (co_price _ _ _ co) as hprice. pose proof (co_rel _ _ _ co) as hrel. pose proof (mem_small _ _ _ _ hrel hg0 hprice) as hsmall.
  destruct (call_evm b rv k full greq a value io is oo os st co hst) as [hF hS]. cbv zeta in hF, hS. unfold effect_go. rewrite mk_mem, mk_world.
  destruct (expansion _ _ _ io is (ct_gas b) hrel hw2 hw3 hg0 hprice) as (c1 & o1 & z1 & -> & hz1 & ho1 & hx1). destruct (expansion _ _ _ oo os (ct_gas b) hrel hw4 hw5 hg0 hprice) as (c2 & o2 & z2 & -> & hz2 & ho2 & hx2).
  cbv zeta. pose proof (expand_fee (zlen (ct_mem b)) io is ltac:(lia)) as hf1. pose proof (expand_fee (zlen (ct_mem b)) oo os ltac:(lia)) as hf2.
  assert (emax : (if c1 <? c2 then c2 else c1) = Z.max c1 c2) by (destruct (Z.ltb_spec c1 c2); lia). rewrite emax. clear emax.
  assert (evc : (if value =? 0 then 0 else 9000) = (if negb (value =? 0) then 9000 else 0)) by (destruct (value =? 0); reflexivity). rewrite evc. set (vc := if negb (value =? 0) then 9000 else 0) in *. assert (hvc : 0 <= vc <= 9000) by (unfold vc; destruct (value =? 0); cbn; lia).
  assert (enc : (if negb (value =? 0) && AccIsEmpty (ct_world b) (bytes20 a) && negb match k with CALLCODE => true | _ => false end then 25000 else 0) = new_fee b k (bytes20 a) value).
  { unfold new_fee. destruct k; cbn [negb]; rewrite ?andb_true_r, ?andb_false_r; try reflexivity; rewrite (hv0 eq_refl); reflexivity. }
  rewrite enc. set (nc := new_fee b k (bytes20 a) value) in *. assert (hnc : 0 <= nc <= 25000) by (unfold nc, new_fee; destruct k; try lia; destruct (negb (value =? 0) && AccIsEmpty (ct_world b) (bytes20 a)); lia).
  unfold maxInt64 in *. rewrite sum_ok; [|lia|repeat (constructor; [lia|]); constructor]. unfold zsum. cbn [fold_right]. rewrite Z.add_0_l, Z.add_0_r. unfold call_fee in hF, hS. fold vc nc in hF, hS. rewrite <- eac in hF, hS.
  pose proof (expand_two (zlen (ct_mem b)) io is oo os ltac:(lia)) as e2. set (act := expand (expand (zlen (ct_mem b)) io is) oo os) in *.
  destruct (Z_lt_ge_dec (ct_gas b - (Gmem act - Gmem (zlen (ct_mem b)) + (sg + ac + vc + nc))) 0) as [hneg|hpos].
  - destruct (hF hneg) as (e & f & ->). destruct (Z.ltb_spec (Z.max c1 c2 + (vc + (nc + ac))) (2 ^ 63)); [|apply agrees_failed]. unfold pay. rewrite mk_gas.
    destruct (Z.ltb_spec (ct_gas b - sg) (Z.max c1 c2 + (vc + (nc + ac)))); [apply agrees_failed|]. exfalso. lia.
  - specialize (hS ltac:(lia)). rewrite hS. clear hF hS. destruct hx1 as [(hx1 & hx1a & hx1b & hx1c & hx1d)|hx1]; [|lia]. destruct hx2 as [(hx2 & hx2a & hx2b & hx2c & hx2d)|hx2]; [|lia]. subst z1 z2.
    destruct (Z.ltb_spec (Z.max c1 c2 + (vc + (nc + ac))) (2 ^ 63)); [|lia]. unfold pay. rewrite mk_gas. destruct (Z.ltb_spec (ct_gas b - sg) (Z.max c1 c2 + (vc + (nc + ac)))); [lia|].
    rewrite s64_small by lia. rewrite mk_set_gas, mk_revision, mk_world, mk_set_world.
    replace (ct_gas b - sg - (Z.max c1 c2 + (vc + (nc + ac)))) with (ct_gas b - (Gmem act - Gmem (zlen (ct_mem b)) + (sg + ac + vc + nc))) by lia. set (g := ct_gas b - (Gmem act - Gmem (zlen (ct_mem b)) + (sg + ac + vc + nc))) in *.
    assert (ew : (if 1 <=? ct_revision b then mk b (ct_pc b + 1) g (ct_refund b) st (ct_mem b) (ct_last b) (AccMarkWarm (bytes20 a) (ct_world b)) else mk b (ct_pc b + 1) g (ct_refund b) st (ct_mem b) (ct_last b) (ct_world b)) =
      mk b (ct_pc b + 1) g (ct_refund b) st (ct_mem b) (ct_last b) (world_at b (bytes20 a))).
    { pose proof (rev_in _ _ (co_rev _ _ _ co)) as hr. unfold world_at. destruct (Z.leb_spec 1 (ct_revision b)); destruct (Z.eqb_spec (ct_revision b) 0); try lia; reflexivity. }
    rewrite ew, mk_mem, mk_set_mem. unfold is_word in hw3, hw5. pose proof (expand_ge (zlen (ct_mem b)) io is) as hge1. pose proof (expand_ge (expand (zlen (ct_mem b)) io is) oo os) as hge2. fold act in hge2.
    assert (ha1 : 0 <= expand (zlen (ct_mem b)) io is < 2 ^ 37) by (split; [lia|]; apply size_small; lia). assert (ha2 : 0 <= act < 2 ^ 37) by (split; [lia|]; apply size_small; lia).
    assert (hm1 : mem_rel (Grow o1 is (ct_mem b)) (data_at (ct_mem b)) (expand (zlen (ct_mem b)) io is)).
    { destruct (Z.eq_dec is 0) as [ez|hz]; [rewrite ez; exact hrel|]. destruct (hx1d hz) as (-> & k1 & k2). apply grow_ok; try assumption; lia. }
    assert (hm2 : mem_rel (Grow o2 os (Grow o1 is (ct_mem b))) (data_at (ct_mem b)) act).
    { unfold act. destruct (Z.eq_dec os 0) as [ez|hz]; [rewrite ez; exact hm1|]. destruct (hx2d hz) as (-> & k1 & k2). apply grow_ok; try assumption; lia. }
    apply tail_ok; try assumption; try lia; try (apply co).
    + intros hz. destruct (hx1d hz) as (k0 & k1 & k2). split; [exact k0|]. split; [lia|]. pose proof (expand_end (zlen (ct_mem b)) io is hz). lia.
    + intros hz. destruct (hx2d hz) as (k0 & k1 & k2). split; [exact k0|]. split; [lia|]. apply expand_end. exact hz.
    + unfold world_at. destruct (ct_revision b =? 0); reflexivity.
    + unfold world_at. destruct (ct_revision b =? 0); reflexivity.
Qed.
Lemma call_short b rv k full greq a value io is oo os st : ctx_ok b rv full -> ct_revision b = 0 -> ct_gas b < 700 ->
  exists e f, answer call (q_go b rv (opk k) (Paid b full 0) greq a value io is oo os st) = Fail e f.
Proof.
  intros co hr hg. unfold q_go. change (msg_depth (msg_of b)) with 0. cbn [Z.ltb Z.compare]. change (addr_of a) with (bytes20 a). cbn [Paid f_active]. fold (Paid b full 0). set (mf := Gmem _ - Gmem _).
  assert (hmf : 0 <= mf). { unfold mf. pose proof (zlen_nonneg (ct_mem b)). rewrite expand_two by lia. pose proof (expand_fee (zlen (ct_mem b)) io is ltac:(lia)). lia. }
  unfold q_charge at 1. assert (e0 : f_gas (Paid b full 0) = ct_gas b) by (cbn; lia). rewrite e0. destruct (ct_gas b <? mf); [eexists _, _; reflexivity|]. destruct (match opk k with OpCall => negb (value =? 0) && static (msg_of b) | _ => false end); [eexists _, _; reflexivity|].
  change (with_gas (ct_gas b - mf) (Paid b full 0)) with (Paid b full mf). rewrite (account_price tx b rv _ _ _ (co_rev _ _ _ co)). rewrite hr. cbn [Z.eqb]. unfold q_charge. change (f_gas (Paid b full mf)) with (ct_gas b - mf).
  set (x := match opk k with OpCall => _ | _ => _ end). assert (hx : 0 <= if negb (value =? 0) then 9000 else 0) by (destruct (value =? 0); cbn; lia). destruct (Z.ltb_spec (ct_gas b - mf) (700 + (if negb (value =? 0) then 9000 else 0) + (if x then 25000 else 0))); [eexists _, _; reflexivity|destruct x; lia].
Qed.
Lemma call_static b rv full greq a value io is oo os st : ct_readonly b = true -> value <> 0 ->
  exists e f, answer call (q_go b rv OpCall (Paid b full 0) greq a value io is oo os st) = Fail e f.
Proof.
  intros hr hv. unfold q_go. change (msg_depth (msg_of b)) with 0. cbn [Z.ltb Z.compare]. unfold q_charge at 1. destruct (f_gas (Paid b full 0) <? _); [eexists _, _; reflexivity|]. rewrite static_of, hr.
  destruct (Z.eqb_spec value 0); [contradiction|]. cbn [negb andb]. eexists _, _. reflexivity.
Qed.
Lemma call_ok : Forall rule_ok callRules.
Proof.
  unfold callRules. apply Forall_flat_map, Forall_forall. intros k _. apply Forall_flat_map, Forall_forall. intros rev hrev. apply Forall_flat_map, Forall_forall. intros warm _. apply Forall_flat_map, Forall_forall. intros static _. apply Forall_flat_map, Forall_forall. intros zero _.
  unfold getRulesForCall. set (fails := match k with CALL => static && negb zero | _ => false end).
  assert (hi : SpecEvm.instruction (call_op k) = Some (mkInstr (if takes_value k then 7 else 6) 1 0 Istanbul false)) by (destruct k; reflexivity).
  eapply priced_ok; [exact hi|destruct k; discriminate| |reflexivity|reflexivity|destruct k; cbn; lia|]; [cbn [i_gas]; destruct (rev =? 0); lia|]. intros b rv st co hc hop h1 h2. cbn [i_op i_effect i_conditions i_gas] in *. rewrite call_exec. pose proof (co_words _ _ _ co) as hw. pose proof (co_gas _ _ _ co) as hg0.
  apply Forall_app in hc. destruct hc as [hc hval]. rewrite !Forall_cons_iff in hc. destruct hc as (c1 & c2 & c3 & _). apply holds_rev in c1. apply holds_ro in c3. assert (er : (ct_revision b =? 0) = (rev =? 0)) by lia.
  assert (core : forall greq a v io is oo os s, i_call H call (msg_of b) rv (opk k) (Paid b st 0) = answer call (q_go b rv (opk k) (Paid b st 0) greq a v io is oo os s) -> AccIsWarm (ct_world b) (bytes20 a) = warm ->
     (takes_value k = false -> v = 0) -> (takes_value k = true -> (v =? 0) = zero) -> is_word greq -> is_word io -> is_word is -> is_word oo -> is_word os ->
     (fails = false -> callEffect (if rev =? 0 then 0 else if warm then 100 else 2600) k (paid b st (if rev =? 0 then 700 else 0)) =
        effect_go (if rev =? 0 then 0 else if warm then 100 else 2600) k greq a v io is oo os (mk b (ct_pc b + 1) (ct_gas b - (if rev =? 0 then 700 else 0)) (ct_refund b) s (ct_mem b) (ct_last b) (ct_world b))) ->
     (ct_gas b < (if rev =? 0 then 700 else 0) -> exists e f, i_call H call (msg_of b) rv (opk k) (Paid b st 0) = Fail e f) /\
     ((if rev =? 0 then 700 else 0) <= ct_gas b -> agrees b ((if fails then FailEffect else callEffect (if rev =? 0 then 0 else if warm then 100 else 2600) k) (paid b st (if rev =? 0 then 700 else 0))) (i_call H call (msg_of b) rv (opk k) (Paid b st 0)))).
  { intros greq a v io is oo os s hx ew hv0 hvz w1 w2 w3 w4 w5 heff. rewrite hx. split.
    - intros hg. destruct (Z.eqb_spec rev 0); [|lia]. apply call_short; [exact co|lia|exact hg].
    - intros hg. destruct fails eqn:ef.
      + unfold fails in ef. destruct k; try discriminate. rewrite andb_true_iff in ef. destruct ef as [e1 e2]. destruct (call_static b rv st greq a v io is oo os s ltac:(congruence)) as (e & f & E); [specialize (hvz eq_refl); destruct zero; [discriminate|lia]|]. cbn [opk]. rewrite E. apply agrees_fail.
      + rewrite (heff eq_refl). apply call_go; try assumption.
        * intros -> hv. unfold fails in ef. specialize (hvz eq_refl). destruct static; [|exact c3]. destruct zero; [lia|discriminate].
        * destruct (rev =? 0); lia.
        * destruct (rev =? 0), warm; lia.
        * unfold access_fee. rewrite er, ew. destruct (rev =? 0), warm; reflexivity. }
  destruct (takes_value k) eqn:ek.
  - destruct st as [|g [|a [|v [|io [|is [|oo [|os s]]]]]]]; try (cbn in h1; lia). rewrite !Forall_cons_iff in hw. destruct hw as (w1 & w2 & w3 & w4 & w5 & w6 & w7 & _). apply (core g a v io is oo os s); try assumption; try discriminate.
    + apply q_value; [exact ek|reflexivity].
    + destruct warm; cond1 co c2; [|apply negb_true_iff in c2]; exact c2.
    + intros _. rewrite Forall_cons_iff in hval. destruct hval as [hval _]. destruct zero; cond2 co hval; cbn [compare] in hval; lia.
    + intros _. unfold paid. rewrite effect_value by exact ek. reflexivity.
  - destruct st as [|g [|a [|io [|is [|oo [|os s]]]]]]; try (cbn in h1; lia). rewrite !Forall_cons_iff in hw. destruct hw as (w1 & w2 & w4 & w5 & w6 & w7 & _). apply (core g a 0 io is oo os s); try assumption; try discriminate; try reflexivity.
    + apply q_plain; [exact ek|reflexivity].
    + destruct warm; cond1 co c2; [|apply negb_true_iff in c2]; exact c2.
    + intros _. unfold paid. rewrite effect_plain by exact ek. reflexivity.
Qed.
End Sound.
