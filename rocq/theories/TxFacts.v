(** What the transaction processor does. *)
From Verif Require Import Base Host SpecEvm SpecVm Vm Client GoAdapter Floria SpecTx MemFacts ClientFacts SpecHost StaticFacts RunInv FloriaFacts FloriaInv.
From Coq Require Import Lia ZArith List Bool.
Import ListNotations.

Definition fb0 (m : message) : cresult := mkRes EVMC_FAILURE 0 0 [] 0.
Definition bufs0 (n : nat) : list (option Z) := repeat (Some 0) 1024.
Definition tick0 (n : nat) : Z := 0.
Lemma rest0_ok : rest_ok fb0 bufs0.
Proof.
  split; [|intros; reflexivity]. intros m Hm Hg. split; cbn [fb0 cr_gas_left cr_gas_refund cr_output cr_create_address].
  - lia.
  - lia.
  - constructor.
  - reflexivity.
  - apply zero_addr.
Qed.

Section TxFacts.
Context {W : Type}.
Variable f : floria W.
Hypothesis Hf : floria_ok f.
Notation ctx := (fl_ctx f).
Notation rc := (x_rc (fl_ctx f)).
Notation WW := (W * rctx)%type.
Let Hc := fo_ctx f Hf.
Notation mach := (machine f).
Notation mach0 := (machine f fb0 tick0 bufs0).

Lemma ready0 : ready f fb0 tick0 bufs0 (vm_new 0 0).
Proof. split; [apply rest0_ok|apply reach_new]. Qed.

(** ** Calls *)
(** what the reference says a call returns *)
Definition ref_call (w : W) (r : rctx) (kind : go_kind) (p : call_params) : option call_result * W :=
  let '(cr, x) := play (reference mach0) (Call f r w kind p (fun res w => Done (cresult_of res) (w, r))) in (call_result_of cr, fst x).

Lemma reference_same fb1 tick1 bufs1 fb2 tick2 bufs2 x rv code m : framed x m -> reference (mach fb1 tick1 bufs1) x rv code m = reference (mach fb2 tick2 bufs2) x rv code m.
Proof. intros H. unfold reference, machine. cbn [g_host g_keccak g_handler]. apply eval_same. exact H. Qed.
Lemma reference_context fb tick bufs x rv code m : snd (snd (reference (mach fb tick bufs) x rv code m)) = snd x.
Proof. unfold reference, machine. cbn [g_host g_keccak g_handler]. apply eval_context. Qed.
Lemma call_round res : call_result_of (cresult_of res) = res.
Proof. destruct res as [[o g r c s]|]; [destruct s|]; reflexivity. Qed.

Lemma call_ref w r kind p : params_ok p -> 0 <= r_depth r ->
  calls_to f w r kind p (fst (ref_call w r kind p)) (snd (ref_call w r kind p)) /\
  match fst (ref_call w r kind p) with Some res => result_ok (cp_gas p) res | None => True end.
Proof.
  intros Hp Hd.
  set (prog := Call f r w kind p (fun res w => Done (cresult_of res) (w, r))).
  set (Q := fun (cr : cresult) (_ : WW) => match call_result_of cr with Some res => result_ok (cp_gas p) res | None => True end).
  assert (Tr : tree_ok f (r_depth r) Q prog).
  { apply Call_ok; [exact Hf|exact Hp|exact Hd|]. intros res w' Hres. apply tok_done. unfold Q. rewrite call_round. exact Hres. }
  assert (Ev : every (deep (r_static r)) (fun _ => True) (fun _ => True) prog) by (apply Call_framed; intros; apply ev_done; exact Logic.I).
  split.
  - intros fb tick bufs v [Hr Hv]. destruct (tree_run f Hf fb tick bufs Hr (r_depth r) Q prog Tr v Hv) as (v' & E & Hv' & _).
    exists v'. unfold context_call. fold prog. rewrite E. cbn [rbind]. unfold ref_call. fold prog.
    assert (S : play (reference (mach fb tick bufs)) prog = play (reference mach0) prog).
    { eapply play_ext; [|exact Ev]. intros x rv code m (F & _). split; [exact Logic.I|]. split; [apply reference_context|apply reference_same; exact F]. }
    rewrite S. destruct (play (reference mach0) prog) as [cr x]. cbn [fst snd]. split; [reflexivity|split; assumption].
  - destruct (tree_run f Hf fb0 tick0 bufs0 rest0_ok (r_depth r) Q prog Tr (vm_new 0 0) (reach_new _ _ _)) as (v' & _ & _ & HQ).
    unfold ref_call. fold prog. destruct (play (reference mach0) prog) as [cr x]. cbn [fst snd] in *. exact HQ.
Qed.
Lemma calls_unique w r kind p res1 w1 res2 w2 : calls_to f w r kind p res1 w1 -> calls_to f w r kind p res2 w2 -> res1 = res2 /\ w1 = w2.
Proof.
  intros H1 H2. destruct (H1 _ _ _ _ ready0) as (v1 & E1 & _). destruct (H2 _ _ _ _ ready0) as (v2 & E2 & _). rewrite E1 in E2. injection E2 as -> -> _. auto.
Qed.
Theorem call_total w r kind p : params_ok p -> 0 <= r_depth r -> exists res w', calls_to f w r kind p res w' /\
  match res with Some res => result_ok (cp_gas p) res | None => True end.
Proof. intros Hp Hd. destruct (call_ref w r kind p Hp Hd). eauto. Qed.
Lemma calls_ref w r kind p res w' : params_ok p -> 0 <= r_depth r -> calls_to f w r kind p res w' -> ref_call w r kind p = (res, w') /\
  match res with Some res => result_ok (cp_gas p) res | None => True end.
Proof.
  intros Hp Hd Hcall. destruct (call_ref w r kind p Hp Hd) as [X1 X2]. destruct (calls_unique _ _ _ _ _ _ _ _ X1 Hcall) as [<- <-].
  split; [destruct (ref_call w r kind p); reflexivity|exact X2].
Qed.

(** ** Transactions *)
Lemma tx_params_ok t gas : transaction_ok t -> 0 <= gas < 2 ^ 54 -> params_ok (tx_params t gas).
Proof.
  intros [T1 T2 T3 T4 T5 T6 T7 T8] Hg. split; cbn [tx_params cp_sender cp_recipient cp_value cp_input cp_gas]; try assumption.
  destruct (t_recipient t) as [a|]; [apply T2; reflexivity|apply zero_addr].
Qed.
Lemma zlen_filter_le {A} (q : A -> bool) l : zlen (filter q l) <= zlen l.
Proof. unfold zlen. induction l as [|x l IH]; cbn [filter length]; [lia|]. destruct (q x); cbn [length]; lia. Qed.
Lemma intrinsic_eq t : setupGasBilling t = intrinsic t.
Proof.
  unfold setupGasBilling, intrinsic, TxGasContractCreation, TxGas, TxDataZeroGasEIP2028, TxDataNonZeroGasEIP2028, TxAccessListAddressGas, TxAccessListStorageKeyGas.
  assert (D : forall l, (zlen l - zlen (filter (fun b => negb (b =? 0)) l)) * 4 + zlen (filter (fun b => negb (b =? 0)) l) * 16 = sum (map (fun b => if b =? 0 then 4 else 16) l)).
  { induction l as [|b l IH]; [reflexivity|]. cbn [filter map sum fold_right]. fold (sum (map (fun b => if b =? 0 then 4 else 16) l)). rewrite <- IH.
    destruct (b =? 0); cbn [negb]; rewrite ?zlen_cons; lia. }
  assert (A : forall (l : list (Z * list Z)) n, zlen l * 2400 + fold_left (fun n e => n + zlen (snd e) * 1900) l n = n + sum (map (fun e => 2400 + 1900 * zlen (snd e)) l)).
  { induction l as [|e l IH]; intros n; [unfold zlen; cbn; lia|]. cbn [fold_left map sum fold_right]. fold (sum (map (fun e : Z * list Z => 2400 + 1900 * zlen (snd e)) l)). rewrite zlen_cons.
    specialize (IH (n + zlen (snd e) * 1900)). lia. }
  specialize (D (t_input t)). destruct (t_access_list t) as [l|]; [specialize (A l 0)|]; destruct (t_recipient t); lia.
Qed.
Lemma sum_nonneg l : Forall (fun x => 0 <= x) l -> 0 <= sum l.
Proof. unfold sum. induction 1; cbn [fold_right]; lia. Qed.
Lemma intrinsic_pos t : 21000 <= intrinsic t.
Proof.
  unfold intrinsic. assert (0 <= sum (map (fun b => if b =? 0 then 4 else 16) (t_input t))).
  { apply sum_nonneg. apply Forall_map. apply Forall_forall. intros b _. destruct (b =? 0); lia. }
  assert (0 <= match t_access_list t with None => 0 | Some l => sum (map (fun e => 2400 + 1900 * zlen (snd e)) l) end).
  { destruct (t_access_list t); [|lia]. apply sum_nonneg. apply Forall_map. apply Forall_forall. intros e _. pose proof (zlen_nonneg (snd e)). lia. }
  destruct (t_recipient t); lia.
Qed.

(** processor_run in terms of the call's reference *)
Definition ref_run_tx (w : W) (block : Z) (t : transaction) : outcome * W :=
  match before_call f (fl_rev f block) w t with
  | Rejected r w => (Receipt r, w)
  | Prepared gas w => let '(res, w) := ref_call w (tx_context_of block t) (tx_kind t) (tx_params t gas) in after_call f (fl_rev f block) t res w
  end.
Lemma before_gas rev w t gas w1 : transaction_ok t -> before_call f rev w t = Prepared gas w1 -> 0 <= gas < 2 ^ 54 /\ gas = t_gas_limit t - intrinsic t.
Proof.
  intros Ht. unfold before_call. destruct (nonce_bad _ _); [discriminate|]. destruct (not_eoa _ _ _); [discriminate|].
  destruct (buyGas _ _ _); [|discriminate]. rewrite intrinsic_eq. destruct (Z.ltb_spec (t_gas_limit t) (intrinsic t)); [discriminate|].
  destruct (_ && _); [discriminate|]. intros E. injection E as <- _. pose proof (intrinsic_pos t). destruct (to_limit _ Ht). lia.
Qed.
Lemma run_ref w block t : transaction_ok t -> runs_to f w block t (fst (ref_run_tx w block t)) (snd (ref_run_tx w block t)).
Proof.
  intros Ht fb tick bufs v Hv. unfold processor_run, ref_run_tx. destruct (before_call f (fl_rev f block) w t) as [r w1|gas w1] eqn:Eb; [exists v; split; [reflexivity|exact Hv]|].
  destruct (before_gas _ _ _ _ _ Ht Eb) as [Hg _].
  destruct (call_ref w1 (tx_context_of block t) (tx_kind t) (tx_params t gas) (tx_params_ok t gas Ht Hg) ltac:(reflexivity || (cbn; lia))) as [Hcall _].
  destruct (Hcall fb tick bufs v Hv) as (v' & E & Hv'). rewrite E. cbn [rbind]. destruct (ref_call _ _ _ _) as [res w2]. cbn [fst snd].
  destruct (after_call _ _ _ res w2) as [o w3]. exists v'. split; [reflexivity|exact Hv'].
Qed.
Lemma runs_unique w block t o1 w1 o2 w2 : runs_to f w block t o1 w1 -> runs_to f w block t o2 w2 -> o1 = o2 /\ w1 = w2.
Proof.
  intros H1 H2. destruct (H1 _ _ _ _ ready0) as (v1 & E1 & _). destruct (H2 _ _ _ _ ready0) as (v2 & E2 & _). rewrite E1 in E2. injection E2 as -> -> _. auto.
Qed.
(** Run always returns; what it returns does not depend on the VM's history, options, stack buffers or clock *)
Theorem run_total w block t : transaction_ok t ->
  (exists o w', runs_to f w block t o w') /\
  (forall fallback tick bufs v o w' v', ready f fallback tick bufs v -> processor_run f fallback tick bufs v w block t = Ok (o, w', v') ->
     runs_to f w block t o w' /\ ready f fallback tick bufs v').
Proof.
  intros Ht. pose proof (run_ref w block t Ht) as R. split; [eauto|]. intros fb tick bufs v o w' v' Hv E. destruct (R fb tick bufs v Hv) as (v2 & E2 & Hv2).
  rewrite E in E2. injection E2 as -> -> ->. auto.
Qed.
Lemma runs_ref w block t o w' : transaction_ok t -> runs_to f w block t o w' -> ref_run_tx w block t = (o, w').
Proof. intros Ht H. destruct (runs_unique _ _ _ _ _ _ _ (run_ref w block t Ht) H) as [<- <-]. destruct (ref_run_tx w block t); reflexivity. Qed.

(** ** The checks *)
Lemma touch_reads w a b : rc_balance rc (touch_account f w a) b = rc_balance rc w b /\ rc_nonce rc (touch_account f w a) b = rc_nonce rc w b.
Proof. apply (xo_touch_account _ Hc). Qed.
Lemma slots_reads a keys b : forall w, rc_balance rc (access_slots f w a keys) b = rc_balance rc w b /\ rc_nonce rc (access_slots f w a keys) b = rc_nonce rc w b.
Proof.
  induction keys as [|k keys IH]; intros w; [split; reflexivity|]. unfold access_slots in *. cbn [fold_left].
  destruct (IH (snd (rc_access_storage rc w a k))) as [-> ->]. apply (xo_touch_slot _ Hc).
Qed.
Lemma access_reads l b : forall w, rc_balance rc (access_all f w l) b = rc_balance rc w b /\ rc_nonce rc (access_all f w l) b = rc_nonce rc w b.
Proof.
  induction l as [|[a keys] l IH]; intros w; [split; reflexivity|]. unfold access_all in *. cbn [fold_left fst snd].
  destruct (IH (access_slots f (snd (rc_access_account rc w a)) a keys)) as [-> ->]. destruct (slots_reads a keys b (snd (rc_access_account rc w a))) as [-> ->].
  apply (xo_touch_account _ Hc).
Qed.
Lemma access_app l1 l2 w : access_all f w (l1 ++ l2) = access_all f (access_all f w l1) l2.
Proof. unfold access_all. apply fold_left_app. Qed.
Lemma access_list_eq rev w t : (if rev_ge rev Berlin then setUpAccessList f w t rev else w) = access_all f w (listed f rev t).
Proof.
  unfold listed, setUpAccessList. destruct (t_access_list t) as [l|]; [|destruct (rev_ge rev Berlin); reflexivity]. destruct (rev_ge rev Berlin); [|reflexivity].
  assert (A : forall (ps : list Z) w, access_all f w (map (fun a => (a, [])) ps) = fold_left (touch_account f) ps w).
  { induction ps as [|a ps IH]; intros u; [reflexivity|]. exact (IH (touch_account f u a)). }
  set (w1 := touch_account f w (t_sender t)).
  match goal with |- _ = access_all f w ((t_sender t, []) :: ?q) => change (access_all f w ((t_sender t, []) :: q)) with (access_all f w1 q) end.
  rewrite !access_app, A. destruct (t_recipient t) as [a|]; reflexivity.
Qed.
Lemma price_bound p l : is_word p -> 0 <= l -> 0 <= p * l.
Proof. intros [? _] ?. nia. Qed.

Section Checks.
Variables (rev : revision) (w : W) (t : transaction).
Hypothesis Ht : transaction_ok t.
Hypothesis Hl : 0 <= t_gas_limit t.
Hypothesis Hpl : t_gas_price t * t_gas_limit t < 2 ^ 256.
Lemma limit_u64 : u64 (t_gas_limit t) = t_gas_limit t.
Proof. unfold u64. apply Z.mod_small. pose proof (to_limit _ Ht). assert (2 ^ 54 < 2 ^ 64) by reflexivity. lia. Qed.
Lemma scale_exact : scale (t_gas_price t) (u64 (t_gas_limit t)) = t_gas_price t * t_gas_limit t.
Proof. rewrite limit_u64. unfold scale. apply Z.mod_small. pose proof (price_bound _ _ (to_price _ Ht) Hl). lia. Qed.
Lemma buy_eq : buyGas f w t = if rc_balance rc w (t_sender t) <? t_gas_price t * t_gas_limit t then None else Some (pay f w t).
Proof.
  unfold buyGas, pay. rewrite scale_exact. destruct (Z.ltb_spec (rc_balance rc w (t_sender t)) (t_gas_price t * t_gas_limit t)); [reflexivity|].
  rewrite Z.mod_small; [reflexivity|]. pose proof (xo_balance _ Hc w (t_sender t)) as [_ B]. pose proof (price_bound _ _ (to_price _ Ht) Hl). lia.
Qed.
Lemma nonce_eq : nonce_bad (t_nonce t) (rc_nonce rc w (t_sender t)) = false <-> t_nonce t = rc_nonce rc w (t_sender t) /\ t_nonce t < 2 ^ 64 - 1.
Proof.
  unfold nonce_bad. pose proof (xo_nonce _ Hc w (t_sender t)) as N. destruct (Z.eqb_spec (t_nonce t) (rc_nonce rc w (t_sender t))) as [E|E]; cbn [negb orb].
  - rewrite Z.ltb_ge. unfold u64. rewrite E. destruct (Z.eq_dec (rc_nonce rc w (t_sender t)) (2 ^ 64 - 1)) as [->|].
    + change (2 ^ 64 - 1 + 1) with (2 ^ 64). rewrite Z_mod_same_full. split; [intros; exfalso; lia|intros [_ X]; exfalso; lia].
    + rewrite Z.mod_small by lia. split; [intros _; split; [reflexivity|lia]|lia].
  - split; [discriminate|]. intros [X _]. contradiction.
Qed.
Lemma eoa_eq : not_eoa f w (t_sender t) = false <-> rc_code_hash rc w (t_sender t) = 0 \/ rc_code_hash rc w (t_sender t) = fl_keccak f [].
Proof.
  unfold not_eoa, emptyCodeHash. destruct (Z.eqb_spec (rc_code_hash rc w (t_sender t)) 0); cbn [negb andb]; [tauto|].
  destruct (Z.eqb_spec (rc_code_hash rc w (t_sender t)) (fl_keccak f [])); cbn [negb]; [tauto|]. split; [discriminate|tauto].
Qed.
Lemma not_acceptable : ~ acceptable f w t -> before_call f rev w t = Rejected empty_receipt w.
Proof.
  intros N. unfold before_call. destruct (nonce_bad _ _) eqn:En; [reflexivity|]. destruct (not_eoa _ _ _) eqn:Ee; [reflexivity|].
  rewrite buy_eq. destruct (Z.ltb_spec (rc_balance rc w (t_sender t)) (t_gas_price t * t_gas_limit t)); [reflexivity|].
  exfalso. apply N. apply nonce_eq in En. apply eoa_eq in Ee. destruct En. split; assumption.
Qed.
Hypothesis Ha : acceptable f w t.
Lemma accepted_start : before_call f rev w t =
  if t_gas_limit t <? intrinsic t then Rejected (mkReceipt false [] None (t_gas_limit t) []) (pay f w t)
  else if rev_ge rev Shanghai && match t_recipient t with None => true | Some _ => false end && (49152 <? zlen (t_input t)) then Rejected empty_receipt (pay f w t)
  else Prepared (t_gas_limit t - intrinsic t) (started f rev w t).
Proof.
  destruct Ha as [A1 A2 A3 A4]. unfold before_call. rewrite (proj2 nonce_eq (conj A1 A2)), (proj2 eoa_eq A3), buy_eq.
  destruct (Z.ltb_spec (rc_balance rc w (t_sender t)) (t_gas_price t * t_gas_limit t)); [lia|]. rewrite intrinsic_eq. change maxInitCodeSize with 49152.
  destruct (t_gas_limit t <? intrinsic t); [reflexivity|]. destruct (_ && _); [reflexivity|]. rewrite access_list_eq. unfold started.
  destruct (t_recipient t) as [a|]; [|reflexivity]. do 2 f_equal.
  destruct (access_reads (listed f rev t) (t_sender t) (pay f w t)) as [_ ->]. unfold pay. rewrite (xo_set_balance_nonce _ Hc), <- A1.
  unfold u64. apply Z.mod_small. pose proof (to_nonce _ Ht). lia.
Qed.
End Checks.

(** ** The bill *)
Lemma billed_eq rev t res : 0 <= gr_gas_left res <= t_gas_limit t -> calculateGasLeft t res rev = t_gas_limit t - billed rev t res.
Proof.
  intros G. unfold calculateGasLeft, billed. rewrite (Z.quot_div_nonneg (gr_gas_left res) 10) by lia.
  set (rest := if t_sender t =? 0 then _ else _). assert (R : rest <= t_gas_limit t).
  { unfold rest. assert (0 <= gr_gas_left res / 10) by (apply Z.div_pos; lia). destruct (_ =? _); lia. }
  destruct (gr_success res); [|lia]. rewrite !(Z.quot_div_nonneg (t_gas_limit t - rest)) by lia.
  destruct (rev_ge rev London); destruct (Z.ltb_spec ((t_gas_limit t - rest) / 5) (gr_gas_refund res)); destruct (Z.ltb_spec ((t_gas_limit t - rest) / 2) (gr_gas_refund res)); lia.
Qed.
Lemma settle_eq w t g : refundGas f w t g = x_set_balance ctx w (t_sender t) ((rc_balance rc w (t_sender t) + t_gas_price t * (g mod 2 ^ 64)) mod 2 ^ 256).
Proof. unfold refundGas, scale, u64. rewrite Zplus_mod_idemp_r. reflexivity. Qed.
Lemma after_eq rev t res w : 0 <= gr_gas_left res <= t_gas_limit t -> after_call f rev t (Some res) w =
  if negb (gr_success res) && (gr_gas_left res =? 0) then (Receipt (mkReceipt false [] None (t_gas_limit t) []), w)
  else (Receipt (mkReceipt (gr_success res) (gr_output res) (match t_recipient t with None => Some (gr_created res) | Some _ => None end)
         (billed rev t res) (x_logs ctx (settled f w t (billed rev t res)))), settled f w t (billed rev t res)).
Proof.
  intros G. unfold after_call. destruct (negb _ && _); [reflexivity|]. rewrite (billed_eq _ _ _ G), settle_eq. fold (settled f w t (billed rev t res)).
  replace (t_gas_limit t - (t_gas_limit t - billed rev t res)) with (billed rev t res) by lia. reflexivity.
Qed.
(** what a transaction is charged *)
Lemma billed_bounds rev t res : 0 <= gr_gas_left res <= t_gas_limit t - intrinsic t ->
  (gr_success res = false -> intrinsic t <= billed rev t res <= t_gas_limit t) /\
  intrinsic t - intrinsic t / (if rev_ge rev London then 5 else 2) <= billed rev t res /\
  (0 <= gr_gas_refund res -> billed rev t res <= t_gas_limit t) /\
  billed rev t res <= t_gas_limit t + Z.max 0 (- gr_gas_refund res).
Proof.
  intros G. unfold billed. set (rest := if t_sender t =? 0 then _ else _). pose proof (intrinsic_pos t) as I.
  assert (R : 0 <= rest <= t_gas_limit t - intrinsic t).
  { unfold rest. assert (0 <= gr_gas_left res / 10 <= gr_gas_left res) by (split; [apply Z.div_pos; lia|apply Z.div_le_upper_bound; lia]). destruct (_ =? _); lia. }
  set (spent := t_gas_limit t - rest). assert (S : intrinsic t <= spent <= t_gas_limit t) by (unfold spent; lia).
  set (cap := if rev_ge rev London then 5 else 2). assert (C : cap = 5 \/ cap = 2) by (unfold cap; destruct (rev_ge rev London); auto).
  assert (M : intrinsic t - intrinsic t / cap <= spent - spent / cap /\ 0 <= spent / cap).
  { clearbody spent cap. split; [|destruct C as [-> | ->]; apply Z.div_pos; lia]. destruct C as [-> | ->]; Z.to_euclidean_division_equations; lia. }
  destruct (gr_success res); split; try discriminate; try lia.
  all: destruct C as [-> | ->]; Z.to_euclidean_division_equations; lia.
Qed.
End TxFacts.
