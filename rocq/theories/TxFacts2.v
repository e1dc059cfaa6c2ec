(** Invariants of whole transactions. *)
From Verif Require Import Base Host SpecEvm SpecVm Vm Client GoAdapter Floria SpecTx MemFacts ClientFacts SpecHost StaticFacts RunInv FloriaFacts FloriaInv TxFacts.
From Coq Require Import Lia ZArith List Bool.
Import ListNotations.

Section TxFacts2.
Context {W : Type}.
Variable f : floria W.
Hypothesis Hf : floria_ok f.
Notation ctx := (fl_ctx f).
Notation rc := (x_rc (fl_ctx f)).
Notation WW := (W * rctx)%type.
Let Hc := fo_ctx f Hf.
Notation mach0 := (machine f fb0 tick0 bufs0).

(** ** The theorems about Run in terms of Call *)
Lemma acceptable_sensible w t : acceptable f w t -> 0 <= t_gas_limit t -> sensible t.
Proof. intros [_ _ _ A] L. split; [exact L|]. pose proof (xo_balance _ Hc w (t_sender t)) as [_ B]. lia. Qed.
Theorem unacceptable_run w block t : transaction_ok t -> sensible t -> ~ acceptable f w t -> runs_to f w block t (Receipt empty_receipt) w.
Proof.
  intros Ht [S1 S2] N. pose proof (run_ref f Hf w block t Ht) as R. unfold ref_run_tx in R. rewrite (not_acceptable f Hf _ w t Ht S1 S2 N) in R. exact R.
Qed.
Theorem underpaid_run w block t : transaction_ok t -> 0 <= t_gas_limit t -> acceptable f w t -> t_gas_limit t < intrinsic t ->
  runs_to f w block t (Receipt (mkReceipt false [] None (t_gas_limit t) [])) (pay f w t).
Proof.
  intros Ht L A I. destruct (acceptable_sensible w t A L) as [S1 S2]. pose proof (run_ref f Hf w block t Ht) as R. unfold ref_run_tx in R.
  rewrite (accepted_start f Hf _ w t Ht S1 S2 A) in R. apply Z.ltb_lt in I. rewrite I in R. exact R.
Qed.
Lemma oversized_iff rev t : oversized rev t <-> rev_ge rev Shanghai && match t_recipient t with None => true | Some _ => false end && (49152 <? zlen (t_input t)) = true.
Proof.
  unfold oversized. rewrite !andb_true_iff, Z.ltb_lt. destruct (t_recipient t); intuition congruence.
Qed.
Theorem oversized_run w block t : transaction_ok t -> 0 <= t_gas_limit t -> acceptable f w t -> intrinsic t <= t_gas_limit t -> oversized (fl_rev f block) t ->
  runs_to f w block t (Receipt empty_receipt) (pay f w t).
Proof.
  intros Ht L A I O. destruct (acceptable_sensible w t A L) as [S1 S2]. pose proof (run_ref f Hf w block t Ht) as R. unfold ref_run_tx in R.
  rewrite (accepted_start f Hf _ w t Ht S1 S2 A) in R. apply Z.ltb_ge in I. rewrite I in R. apply oversized_iff in O. rewrite O in R. exact R.
Qed.
Lemma tx_calls_eq w block t res w1 : tx_calls f w block t res w1 =
  calls_to f (started f (fl_rev f block) w t) (tx_context_of block t) (tx_kind t) (tx_params t (t_gas_limit t - intrinsic t)) res w1.
Proof. reflexivity. Qed.
Lemma tx_depth block t : 0 <= r_depth (tx_context_of block t). Proof. cbn. lia. Qed.
Theorem accepted_run w block t : transaction_ok t -> acceptable f w t -> intrinsic t <= t_gas_limit t -> ~ oversized (fl_rev f block) t ->
  exists res w1, tx_calls f w block t res w1 /\ match res with Some res => result_ok (t_gas_limit t - intrinsic t) res | None => True end /\
    runs_to f w block t (fst (tx_result f (fl_rev f block) t res w1)) (snd (tx_result f (fl_rev f block) t res w1)).
Proof.
  intros Ht A I O. pose proof (intrinsic_pos t) as Ip. destruct (acceptable_sensible w t A ltac:(lia)) as [S1 S2]. pose proof (run_ref f Hf w block t Ht) as R. unfold ref_run_tx in R.
  rewrite (accepted_start f Hf _ w t Ht S1 S2 A) in R. assert (I' := I). apply Z.ltb_ge in I'. rewrite I' in R.
  destruct (_ && _) eqn:Eo in R; [apply oversized_iff in Eo; contradiction|]. clear Eo.
  destruct (to_limit _ Ht) as [_ L].
  destruct (call_ref f Hf (started f (fl_rev f block) w t) (tx_context_of block t) (tx_kind t) (tx_params t (t_gas_limit t - intrinsic t)) (tx_params_ok t (t_gas_limit t - intrinsic t) Ht ltac:(lia)) (tx_depth block t)) as [C1 C2].
  destruct (ref_call f (started f (fl_rev f block) w t) _ _ _) as [res w1]. cbn [fst snd] in *. exists res, w1. split; [exact C1|]. split; [exact C2|].
  assert (E : after_call f (fl_rev f block) t res w1 = tx_result f (fl_rev f block) t res w1).
  { unfold tx_result. destruct res as [res|]; [|reflexivity]. cbn [tx_params cp_gas] in C2. apply after_eq. destruct C2. lia. }
  rewrite E in R. exact R.
Qed.
(** what becomes of a transaction, in all cases *)
Inductive tx_case (w : W) (block : Z) (t : transaction) (o : outcome) (w' : W) : Prop :=
| tc_refused : ~ acceptable f w t -> o = Receipt empty_receipt -> w' = w -> tx_case w block t o w'
| tc_underpaid : acceptable f w t -> t_gas_limit t < intrinsic t -> o = Receipt (mkReceipt false [] None (t_gas_limit t) []) -> w' = pay f w t -> tx_case w block t o w'
| tc_oversized : acceptable f w t -> intrinsic t <= t_gas_limit t -> oversized (fl_rev f block) t -> o = Receipt empty_receipt -> w' = pay f w t -> tx_case w block t o w'
| tc_call : forall res w1, acceptable f w t -> intrinsic t <= t_gas_limit t -> ~ oversized (fl_rev f block) t -> tx_calls f w block t res w1 ->
    match res with Some res => result_ok (t_gas_limit t - intrinsic t) res | None => True end -> (o, w') = tx_result f (fl_rev f block) t res w1 -> tx_case w block t o w'.
Lemma run_cases w block t o w' : transaction_ok t -> sensible t -> runs_to f w block t o w' -> tx_case w block t o w'.
Proof.
  intros Ht S R. assert (D : acceptable f w t \/ ~ acceptable f w t).
  { destruct S as [S1 S2]. destruct (nonce_bad (t_nonce t) (rc_nonce rc w (t_sender t))) eqn:E1.
    - right. intros [A1 A2 _ _]. rewrite (proj2 (nonce_eq f Hf w t) (conj A1 A2)) in E1. discriminate.
    - destruct (not_eoa f w (t_sender t)) eqn:E2; [right; intros [_ _ A _]; rewrite (proj2 (eoa_eq f w t) A) in E2; discriminate|].
      destruct (Z_le_dec (t_gas_price t * t_gas_limit t) (rc_balance rc w (t_sender t))) as [L|L]; [left|right; intros [_ _ _ A]; contradiction].
      apply nonce_eq in E1; try assumption. apply eoa_eq in E2; try assumption. destruct E1. split; assumption. }
  destruct D as [A|N].
  2: { destruct (runs_unique f _ _ _ _ _ _ _ (unacceptable_run w block t Ht S N) R) as [<- <-]. apply tc_refused; auto. }
  destruct (Z_lt_le_dec (t_gas_limit t) (intrinsic t)) as [I|I].
  { destruct (runs_unique f _ _ _ _ _ _ _ (underpaid_run w block t Ht (proj1 S) A I) R) as [<- <-]. apply tc_underpaid; auto. }
  destruct (rev_ge (fl_rev f block) Shanghai && match t_recipient t with None => true | Some _ => false end && (49152 <? zlen (t_input t))) eqn:O.
  { apply oversized_iff in O. destruct (runs_unique f _ _ _ _ _ _ _ (oversized_run w block t Ht (proj1 S) A I O) R) as [<- <-]. apply tc_oversized; auto. }
  assert (O' : ~ oversized (fl_rev f block) t) by (intros X; apply oversized_iff in X; congruence).
  destruct (accepted_run w block t Ht A I O') as (res & w1 & C & K & R').
  destruct (runs_unique f _ _ _ _ _ _ _ R' R) as [<- <-]. apply tc_call with res w1; try assumption. destruct (tx_result _ _ _ _); reflexivity.
Qed.
Theorem run_is_call w block t res w1 : transaction_ok t -> acceptable f w t -> intrinsic t <= t_gas_limit t -> ~ oversized (fl_rev f block) t -> tx_calls f w block t res w1 ->
  runs_to f w block t (fst (tx_result f (fl_rev f block) t res w1)) (snd (tx_result f (fl_rev f block) t res w1)).
Proof.
  intros Ht A I O C. destruct (accepted_run w block t Ht A I O) as (res' & w1' & C' & _ & R).
  destruct (calls_unique f _ _ _ _ _ _ _ _ C' C) as [<- <-]. exact R.
Qed.
(** gas used *)
Theorem gas_used_bounds w block t o w' : transaction_ok t -> acceptable f w t -> intrinsic t <= t_gas_limit t -> ~ oversized (fl_rev f block) t -> runs_to f w block t o w' ->
  intrinsic t - intrinsic t / (if rev_ge (fl_rev f block) London then 5 else 2) <= rt_gas_used (receipt_of o) /\
  (rt_success (receipt_of o) = false -> intrinsic t <= rt_gas_used (receipt_of o) <= t_gas_limit t) /\
  (forall res w1, tx_calls f w block t (Some res) w1 -> 0 <= gr_gas_refund res -> rt_gas_used (receipt_of o) <= t_gas_limit t) /\
  rt_gas_used (receipt_of o) <= 200 * t_gas_limit t.
Proof.
  intros Ht A I O R. pose proof (intrinsic_pos t) as Ip. destruct (accepted_run w block t Ht A I O) as (res & w1 & C & K & R').
  destruct (runs_unique f _ _ _ _ _ _ _ R' R) as [<- <-].
  set (cap := if rev_ge (fl_rev f block) London then 5 else 2). assert (Q : 0 <= intrinsic t / cap).
  { unfold cap. destruct (rev_ge (fl_rev f block) London); apply Z.div_pos; lia. }
  assert (E : intrinsic t - intrinsic t / cap <= t_gas_limit t /\ (false = false -> intrinsic t <= t_gas_limit t <= t_gas_limit t) /\
    (forall res w1, tx_calls f w block t (Some res) w1 -> 0 <= gr_gas_refund res -> t_gas_limit t <= t_gas_limit t) /\ t_gas_limit t <= 200 * t_gas_limit t) by (repeat split; lia).
  unfold tx_result. destruct res as [res|]; cbn [fst receipt_of rt_success rt_gas_used]; [|exact E].
  destruct (negb _ && _) eqn:En; cbn [fst receipt_of rt_success rt_gas_used]; [exact E|].
  destruct K as (K1 & K2 & _). destruct (billed_bounds (fl_rev f block) t res K1) as (B1 & B2 & B3 & B4). split; [exact B2|]. split; [exact B1|]. split; [|lia].
  intros res' w1' C' H'. destruct (calls_unique f _ _ _ _ _ _ _ _ C' C) as [E' _]. injection E' as ->. apply B3. exact H'.
Qed.

(** ** Invariants *)
Lemma ref_call_steady inert P (HS : steady f inert P) w r kind p :
  (kind <> GoDelegateCall -> cp_sender p <> DriverAddress) ->
  (kind = GoDelegateCall \/ kind = GoCallCode -> inert (cp_recipient p) = false /\ cp_recipient p <> StateContractAddress) ->
  (is_create kind = true -> cp_recipient p = 0) ->
  (is_create kind = false -> P w) ->
  (is_create kind = true -> forall n c, n = rc_nonce rc w (cp_sender p) -> (kind = GoCreate /\ c = fl_create f (cp_sender p) n \/ kind = GoCreate2 /\ exists x h, c = fl_create2 f (cp_sender p) x h) ->
     collision f w c = false -> inert c = false /\ P (bump f w (cp_sender p) c)) ->
  (kind <> GoDelegateCall -> forall w1 b w2, P w1 -> (w1 = w \/ exists c, is_create kind = true /\ collision f w c = false /\ w1 = bump f w (cp_sender p) c) -> (is_create kind = false -> b = cp_recipient p) ->
     transferValue f w1 (cp_value p) (cp_sender p) b = Some w2 -> P w2) ->
  (MaxRecursiveDepth < r_depth r \/ is_create kind = true /\ collision f w (createAddress f kind (cp_sender p) (rc_nonce rc w (cp_sender p)) (cp_salt p) (snd (call_code f w kind p))) = true -> P w) ->
  P (snd (ref_call f w r kind p)).
Proof.
  intros H1 H2 H3 H4 H5 H6 H7. unfold ref_call.
  assert (X : (fun x : WW => P (fst x)) (snd (play (reference mach0) (Call f r w kind p (fun res w => Done (cresult_of res) (w, r)))))).
  { apply (play_every (E_calm inert P) (fun x => P (fst x))).
    - intros x rev code m He. split; [|apply reference_context]. exact (eval_steady f inert P HS fb0 (S levels) x rev code m He).
    - apply (Call_steady f inert P HS); try assumption.
      + intros Hb. apply ev_done. exact (H7 Hb).
      + intros res w' Hw. apply ev_done. exact Hw. }
  destruct (play (reference mach0) _) as [cr x]. exact X.
Qed.
End TxFacts2.
