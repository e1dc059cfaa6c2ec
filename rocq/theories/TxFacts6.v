(** Plain transfers. *)
From Verif Require Import Base Host SpecEvm SpecVm Vm Client GoAdapter Floria SpecTx MemFacts ClientFacts SpecHost StaticFacts RunInv FloriaFacts FloriaInv TxFacts TxFacts2 TxFacts3 TxFacts4 TxFacts5.
From Coq Require Import Lia ZArith List Bool.
Import ListNotations.

Section TxFacts6.
Context {W : Type}.
Variable f : floria W.
Hypothesis Hf : floria_ok f.
Hypothesis Ha : accounts_ok (fl_ctx f).
Notation ctx := (fl_ctx f).
Notation rc := (x_rc (fl_ctx f)).
Let Hc := fo_ctx f Hf.
Notation balance := (rc_balance rc).
Notation nonce := (rc_nonce rc).
Notation code := (rc_code rc).

Lemma transfer_possible w v s b : is_word v -> v <= balance w s -> s = b \/ balance w b + v < 2 ^ 256 -> exists w', transferValue f w v s b = Some w'.
Proof.
  intros [V1 V2] Hv Hb. unfold transferValue. rewrite (Z.mod_small v) by lia. destruct (v =? 0); [eauto|]. destruct (Z.ltb_spec (balance w s) v); [lia|].
  destruct (Z.eqb_spec s b); [eauto|]. destruct Hb as [?|Hb]; [contradiction|]. pose proof (xo_balance _ Hc w b) as [B1 _]. rewrite (Z.mod_small (balance w b + v)) by lia.
  destruct (Z.ltb_spec (balance w b + v) (balance w b)); [lia|]. destruct (Z.ltb_spec (balance w b + v) v); [lia|]. cbn [orb]. eauto.
Qed.
Lemma transfer_impossible w v s b : is_word v -> balance w s < v -> transferValue f w v s b = None.
Proof.
  intros [V1 V2] Hv. pose proof (xo_balance _ Hc w s) as [B1 _]. unfold transferValue. rewrite (Z.mod_small v) by lia. destruct (Z.eqb_spec v 0); [lia|]. destruct (Z.ltb_spec (balance w s) v); [reflexivity|lia].
Qed.
Theorem plain_transfer w block t a : transaction_ok t -> acceptable f w t -> intrinsic t <= t_gas_limit t -> t_recipient t = Some a ->
  a <> StateContractAddress -> fl_precompile f (fl_rev f block) a = None -> code w a = [] ->
  t_gas_price t * t_gas_limit t + t_value t <= balance w (t_sender t) -> t_sender t = a \/ balance w a + t_value t < 2 ^ 256 ->
  exists w', runs_to f w block t (Receipt (mkReceipt true [] None (transfer_gas t) (x_logs ctx w'))) w' /\
    (forall b, balance w' b = balance w b - (if b =? t_sender t then t_value t + t_gas_price t * transfer_gas t else 0) + (if b =? a then t_value t else 0)) /\
    (forall b, nonce w' b = if b =? t_sender t then t_nonce t + 1 else nonce w b) /\
    (forall b, code w' b = code w b).
Proof.
  intros Ht A I Er Hst Hpre Hcode Hv Hb. pose proof (intrinsic_pos t) as Ip. pose proof (acceptable_sensible f Hf w t A ltac:(lia)) as S.
  pose proof (to_value _ Ht) as V. pose proof (to_price _ Ht) as P. pose proof (to_limit _ Ht) as [_ L].
  set (w0 := started f (fl_rev f block) w t). set (left := t_gas_limit t - intrinsic t).
  assert (B0 : forall b, balance w0 b = balance w b - (if b =? t_sender t then t_gas_price t * t_gas_limit t else 0)) by (intros b; apply (started_balance f Hf); assumption).
  destruct (transfer_possible w0 (t_value t) (t_sender t) a V) as [w1 E].
  { rewrite B0, Z.eqb_refl. lia. }
  { destruct Hb as [?|Hb]; [auto|]. destruct (Z.eq_dec (t_sender t) a); [auto|right]. rewrite B0. destruct (Z.eqb_spec a (t_sender t)); [congruence|lia]. }
  assert (C : tx_calls f w block t (Some (mkCallResult [] left 0 0 true)) w1).
  { rewrite tx_calls_eq. fold w0 left. unfold tx_kind. rewrite Er.
    apply (call_no_code f Hf w0 (tx_context_of block t) GoCall (tx_params t left) w1); unfold tx_params; cbn [cp_recipient cp_gas cp_value cp_sender tx_context_of r_depth r_block moved source is_create]; rewrite ?Er.
    - pose proof (tx_params_ok t left Ht ltac:(unfold left; lia)) as X. unfold tx_params in X. rewrite Er in X. exact X.
    - lia.
    - reflexivity.
    - rewrite <- (transfer_eq f Hf) by exact V. exact E.
    - exact Hst.
    - exact Hpre.
    - unfold w0. rewrite (started_code f Hf Ha). exact Hcode. }
  assert (No : ~ oversized (fl_rev f block) t) by (intros (_ & X & _); congruence).
  pose proof (run_is_call f Hf w block t _ w1 Ht A I No C) as R. unfold tx_result in R. cbn [gr_success negb andb gr_output gr_created fst snd] in R. rewrite Er in R.
  assert (Eb : billed (fl_rev f block) t (mkCallResult [] left 0 0 true) = transfer_gas t).
  { unfold billed, transfer_gas. cbn [gr_gas_left gr_success gr_gas_refund]. fold left. assert (0 <= left / 10 <= left) by (unfold left in *; split; [apply Z.div_pos; lia|apply Z.div_le_upper_bound; lia]).
    set (spent := t_gas_limit t - (if t_sender t =? 0 then left else left - left / 10)). assert (0 <= spent) by (unfold spent, left in *; destruct (_ =? 0); lia).
    assert (0 <= spent / (if rev_ge (fl_rev f block) London then 5 else 2)) by (destruct (rev_ge (fl_rev f block) London); apply Z.div_pos; lia).
    rewrite Z.min_l by assumption. unfold spent, left in *. destruct (_ =? 0); lia. }
  rewrite Eb in R. eexists. split; [exact R|].
  assert (U : 0 <= transfer_gas t <= t_gas_limit t).
  { unfold transfer_gas. fold left. assert (0 <= left / 10 <= left) by (unfold left in *; split; [apply Z.div_pos; lia|apply Z.div_le_upper_bound; lia]). unfold left in *. destruct (_ =? 0); lia. }
  destruct V as [V1 V2]. destruct P as [P1 P2].
  assert (M1 : (t_gas_limit t - transfer_gas t) mod 2 ^ 64 = t_gas_limit t - transfer_gas t) by (apply Z.mod_small; assert (2 ^ 54 < 2 ^ 64) by reflexivity; lia).
  assert (B1 : forall b, balance w1 b = balance w0 b - (if b =? t_sender t then t_value t else 0) + (if b =? a then t_value t else 0)).
  { intros b. rewrite (transfer_balance f Hf _ _ _ _ _ b E). rewrite (Z.mod_small (t_value t)) by lia. reflexivity. }
  pose proof (xo_balance _ Hc w (t_sender t)) as [W1 W2]. assert (M0 : 0 <= t_gas_price t * transfer_gas t <= t_gas_price t * t_gas_limit t) by nia.
  split; [|split].
  - intros b. unfold settled. rewrite M1. assert (E1 : balance w1 (t_sender t) = balance w (t_sender t) - t_gas_price t * t_gas_limit t - t_value t + (if t_sender t =? a then t_value t else 0)) by (rewrite B1, B0, Z.eqb_refl; lia).
    assert (W3 : is_word (balance w1 (t_sender t) + t_gas_price t * (t_gas_limit t - transfer_gas t))) by (rewrite E1, Z.mul_sub_distr_l; unfold is_word; destruct (_ =? a); lia).
    rewrite Z.mod_small by exact W3. rewrite (xo_set_balance _ Hc) by exact W3. rewrite Z.mul_sub_distr_l, E1, B1, B0. destruct (Z.eqb_spec b (t_sender t)) as [->|]; lia.
  - intros b. rewrite (settled_nonce f Hf), (transfer_nonce f Hf _ _ _ _ _ _ E). unfold w0. rewrite (started_nonce f Hf), Er, andb_true_r by assumption. reflexivity.
  - intros b. rewrite (settled_code f Hf), (transfer_code f Hf _ _ _ _ _ _ E). unfold w0. apply (started_code f Hf Ha).
Qed.
(** the sender cannot pay the value: all gas is charged, and nothing else happens *)
Theorem unfunded_transfer w block t a : transaction_ok t -> acceptable f w t -> intrinsic t <= t_gas_limit t -> t_recipient t = Some a ->
  balance w (t_sender t) < t_gas_price t * t_gas_limit t + t_value t ->
  exists w', runs_to f w block t (Receipt (mkReceipt false [] None (t_gas_limit t) [])) w' /\
    (forall b, balance w' b = balance w b - (if b =? t_sender t then t_gas_price t * t_gas_limit t else 0)) /\
    (forall b, nonce w' b = if b =? t_sender t then t_nonce t + 1 else nonce w b) /\ (forall b, code w' b = code w b).
Proof.
  intros Ht A I Er Hv. pose proof (intrinsic_pos t) as Ip. pose proof (acceptable_sensible f Hf w t A ltac:(lia)) as S. pose proof (to_limit _ Ht) as [_ L].
  set (w0 := started f (fl_rev f block) w t). set (left := t_gas_limit t - intrinsic t).
  assert (B0 : forall b, balance w0 b = balance w b - (if b =? t_sender t then t_gas_price t * t_gas_limit t else 0)) by (intros b; apply (started_balance f Hf); assumption).
  assert (C : tx_calls f w block t (Some no_result) w0).
  { rewrite tx_calls_eq. fold w0 left. unfold tx_kind. rewrite Er.
    apply (call_unfunded f Hf w0 (tx_context_of block t) GoCall (tx_params t left)); [apply tx_params_ok; [exact Ht|unfold left; lia]|cbn; lia|reflexivity|].
    unfold moved, tx_params. cbn [cp_value cp_sender cp_recipient]. rewrite <- (transfer_eq f Hf) by apply (to_value _ Ht). apply transfer_impossible; [apply (to_value _ Ht)|]. rewrite B0, Z.eqb_refl. lia. }
  assert (No : ~ oversized (fl_rev f block) t) by (intros (_ & X & _); congruence).
  pose proof (run_is_call f Hf w block t _ w0 Ht A I No C) as R. exists w0. split; [exact R|]. split; [exact B0|]. split.
  - intros b. unfold w0. rewrite (started_nonce f Hf), Er, andb_true_r by assumption. reflexivity.
  - intros b. unfold w0. apply (started_code f Hf Ha).
Qed.
(** a transaction whose gas limit is too low costs its sender all the gas, and can be run again *)
Theorem underpaid_again w block t w' : transaction_ok t -> 0 <= t_gas_limit t -> acceptable f w t -> t_gas_limit t < intrinsic t ->
  runs_to f w block t (Receipt (mkReceipt false [] None (t_gas_limit t) [])) w' ->
  balance w' (t_sender t) = balance w (t_sender t) - t_gas_price t * t_gas_limit t /\ nonce w' (t_sender t) = t_nonce t.
Proof.
  intros Ht L A I R. pose proof (acceptable_sensible f Hf w t A L) as S.
  destruct (runs_unique f _ _ _ _ _ _ _ (underpaid_run f Hf w block t Ht L A I) R) as [_ <-]. rewrite (pay_balance f Hf w t _ Ht A S), Z.eqb_refl.
  split; [reflexivity|]. unfold pay. rewrite (xo_set_balance_nonce _ Hc). symmetry. apply (ac_nonce _ _ _ A).
Qed.
End TxFacts6.
