(** Accounts that run no code; what calls do. *)
From Verif Require Import Base Host SpecEvm SpecVm Vm Client GoAdapter Floria SpecTx MemFacts ClientFacts SpecHost StaticFacts RunInv FloriaFacts FloriaInv TxFacts TxFacts2 TxFacts3.
From Coq Require Import Lia ZArith List Bool.
Import ListNotations.

Section TxFacts4.
Context {W : Type}.
Variable f : floria W.
Hypothesis Hf : floria_ok f.
Notation ctx := (fl_ctx f).
Notation rc := (x_rc (fl_ctx f)).
Notation WW := (W * rctx)%type.
Let Hc := fo_ctx f Hf.
Notation mach0 := (machine f fb0 tick0 bufs0).
Notation balance := (rc_balance rc).
Notation nonce := (rc_nonce rc).
Notation code := (rc_code rc).

Lemma taken_collision w a : taken f w a <-> collision f w a = true.
Proof.
  unfold taken, collision, emptyCodeHash. rewrite orb_true_iff, andb_true_iff, !negb_true_iff, !Z.eqb_neq. tauto.
Qed.
Section Guarded.
Hypothesis Ha : accounts_ok (fl_ctx f).
Hypothesis Had : addresses_ok f.
(** ** Accounts that run no code *)
Definition guarded (a n low : Z) (w : W) : Prop := code w a = [] /\ code w DriverAddress = [] /\ nonce w a = n /\ low <= balance w a.
Lemma guarded_same a n low w w' : same_account ctx w w' a -> same_account ctx w w' DriverAddress -> guarded a n low w -> guarded a n low w'.
Proof. unfold guarded. intros (S1 & S2 & S3) (_ & _ & S4) (G1 & G2 & G3 & G4). rewrite S1, S2, S3, S4. auto. Qed.
Lemma guarded_transfer a n low w v s b w' : s <> a -> transferValue f w v s b = Some w' -> guarded a n low w -> guarded a n low w'.
Proof.
  intros N E (G1 & G2 & G3 & G4). unfold guarded. rewrite !(transfer_code f Hf _ _ _ _ _ _ E), (transfer_nonce f Hf _ _ _ _ _ _ E), (transfer_balance f Hf _ _ _ _ _ _ E).
  repeat split; try assumption. destruct (Z.eqb_spec a s); [congruence|]. pose proof (Z.mod_pos_bound v (2 ^ 256) eq_refl). destruct (a =? b); lia.
Qed.
Lemma guarded_steady a n low : n <> 0 -> steady f (fun x => (x =? a) || (x =? DriverAddress)) (guarded a n low).
Proof.
  intros Hn. assert (In1 : forall x, (x =? a) || (x =? DriverAddress) = false -> x <> a /\ x <> DriverAddress) by (intros x E; apply orb_false_iff in E; rewrite !Z.eqb_neq in E; exact E). split.
  - intros w x. apply guarded_same; apply (ao_account _ Ha).
  - intros w x k. apply guarded_same; apply (ao_slot _ Ha).
  - intros w x k v _. apply guarded_same; apply (ao_store _ Ha).
  - intros w x k v _. apply guarded_same; apply (ao_transient _ Ha).
  - intros w x b E (G1 & G2 & G3 & G4). apply In1 in E. destruct E as [E1 E2].
    destruct (ao_destruct _ Ha w x b a ltac:(congruence)) as (D1 & D2 & D3). destruct (ao_destruct _ Ha w x b DriverAddress ltac:(congruence)) as (_ & _ & D4).
    unfold guarded. rewrite D2, D3, D4. repeat split; try assumption. lia.
  - intros w x ts d _. apply guarded_same; apply (ao_log _ Ha).
  - intros w x E (G1 & G2 & _). apply orb_true_iff in E. rewrite !Z.eqb_eq in E. destruct E as [-> | ->]; assumption.
  - intros w v s b w' E G Et. apply (guarded_transfer a n low w v s b w'); try assumption. apply In1. exact E.
  - intros w s m c E (G1 & G2 & G3 & G4) Hcol Hn'. apply In1 in E. destruct E as [E1 E2]. pose proof (collision_nonce f w c Hcol) as C0.
    assert (Ca : c <> a) by congruence. pose proof (created_not_driver f Had s m c Hn') as Cd.
    split; [apply orb_false_iff; rewrite !Z.eqb_neq; auto|]. unfold guarded. rewrite !(bump_code f Hf), (bump_balance f Hf), (bump_nonce f Hf).
    destruct (Z.eqb_spec a c); [congruence|]. destruct (Z.eqb_spec a s); [congruence|]. auto.
  - intros w c cd E (G1 & G2 & G3 & G4). apply In1 in E. destruct E as [E1 E2]. unfold guarded.
    rewrite !(xo_set_code_others _ Hc), (xo_set_code_balance _ Hc), (xo_set_code_nonce _ Hc) by congruence. auto.
  - apply orb_true_iff. right. reflexivity.
  - apply (ad_state _ Had).
  - apply (ad_state2 _ Had).
Qed.
(** other people's accounts: an account that has no code and has been used is left alone, but for money sent to it *)
Theorem others_safe w block t o w' a : transaction_ok t -> sensible t -> t_sender t <> DriverAddress -> code w DriverAddress = [] ->
  a <> t_sender t -> code w a = [] -> nonce w a <> 0 -> runs_to f w block t o w' ->
  code w' a = [] /\ nonce w' a = nonce w a /\ balance w a <= balance w' a.
Proof.
  intros Ht S Nd Cd Na Ca Nn R.
  assert (Ep : acceptable f w t -> code (pay f w t) a = [] /\ nonce (pay f w t) a = nonce w a /\ balance w a <= balance (pay f w t) a).
  { intros A. rewrite (pay_balance f Hf w t a Ht A S). unfold pay. rewrite (xo_set_balance_code _ Hc), (xo_set_balance_nonce _ Hc). destruct (Z.eqb_spec a (t_sender t)); [contradiction|]. repeat split; try assumption; lia. }
  destruct (run_cases f Hf w block t o w' Ht S R) as [N _ ->|A I _ ->|A I O _ ->|res w1 A I O C K E]; [repeat split; try assumption; lia|auto|auto|].
  assert (G0 : guarded a (nonce w a) (balance w a) (started f (fl_rev f block) w t)).
  { unfold guarded. rewrite !(started_code f Hf Ha), (started_nonce f Hf), (started_balance f Hf) by assumption. destruct (Z.eqb_spec a (t_sender t)); [contradiction|]. cbn [andb]. repeat split; try assumption; lia. }
  assert (G : guarded a (nonce w a) (balance w a) w1).
  { apply (tx_call_steady f Hf _ _ (guarded_steady a (nonce w a) (balance w a) Nn) w block t res w1); try assumption; auto.
    - intros En c Ec Hcol. pose proof (collision_nonce f _ _ Hcol) as C0. assert (Hac : c <> a) by (intros ->; destruct G0 as (_ & _ & G0 & _); congruence).
      assert (Hdc : c <> DriverAddress) by (rewrite Ec; apply (ad_driver _ Had)).
      split; [apply orb_false_iff; rewrite !Z.eqb_neq; auto|]. destruct G0 as (G1 & G2 & G3 & G4). unfold guarded. rewrite !(bump_code f Hf), (bump_balance f Hf), (bump_nonce f Hf).
      destruct (Z.eqb_spec a c); [congruence|]. destruct (Z.eqb_spec a (t_sender t)); [congruence|]. auto.
    - intros b w2 w3 G2 _ Et. apply (guarded_transfer a _ _ w2 (t_value t) (t_sender t) b w3); try assumption. congruence. }
  destruct G as (G1 & _ & G3 & G4). destruct (result_settled f _ _ _ _ _ _ E) as [-> | ->]; [auto|].
  rewrite (settled_code f Hf), (settled_nonce f Hf), (settled_others f Hf) by exact Na. auto.
Qed.
(** the sender of an accepted transaction: its nonce has increased by one, it still has no code, and it has paid at most the value and the gas used *)
Lemma sender_guarded w block t res w1 : transaction_ok t -> acceptable f w t -> intrinsic t <= t_gas_limit t -> t_sender t <> DriverAddress -> code w DriverAddress = [] -> code w (t_sender t) = [] ->
  (t_recipient t = None -> ~ taken f (started f (fl_rev f block) w t) (fl_create f (t_sender t) (t_nonce t))) ->
  tx_calls f w block t res w1 -> guarded (t_sender t) (t_nonce t + 1) (balance w (t_sender t) - t_value t - t_gas_price t * t_gas_limit t) w1.
Proof.
  intros Ht A I Nd Cd Cs Hcol C. pose proof (intrinsic_pos t) as Ip. pose proof (acceptable_sensible f Hf w t A ltac:(lia)) as S. pose proof (to_value _ Ht) as [V1 V2].
  assert (Nz : t_nonce t + 1 <> 0) by (pose proof (to_nonce _ Ht); lia).
  assert (B0 : balance (started f (fl_rev f block) w t) (t_sender t) = balance w (t_sender t) - t_gas_price t * t_gas_limit t).
  { rewrite (started_balance f Hf) by assumption. rewrite Z.eqb_refl. reflexivity. }
  apply (tx_call_steady f Hf _ _ (guarded_steady (t_sender t) (t_nonce t + 1) (balance w (t_sender t) - t_value t - t_gas_price t * t_gas_limit t) Nz) w block t res w1); try assumption.
  - intros a Er. unfold guarded. rewrite !(started_code f Hf Ha), (started_nonce f Hf) by assumption. rewrite B0, Er, Z.eqb_refl. cbn [andb]. repeat split; try assumption. lia.
  - intros Er c Ec Hx. assert (c <> t_sender t) by (rewrite Ec; apply (ad_self _ Had)). assert (c <> DriverAddress) by (rewrite Ec; apply (ad_driver _ Had)).
    split; [apply orb_false_iff; rewrite !Z.eqb_neq; auto|]. unfold guarded. rewrite !(bump_code f Hf), (bump_balance f Hf), (bump_nonce f Hf), !(started_code f Hf Ha), (started_nonce f Hf), B0, Er, Z.eqb_refl, andb_false_r by assumption.
    destruct (Z.eqb_spec (t_sender t) c); [congruence|]. rewrite <- (ac_nonce _ _ _ A). pose proof (nonce_next f w t Ht A) as N.
    unfold u64. rewrite Z.mod_small by exact N. repeat split; try assumption. lia.
  - intros b w2 w3 (G1 & G2 & G3 & G4) Eb Et. unfold guarded. rewrite !(transfer_code f Hf _ _ _ _ _ _ Et), (transfer_nonce f Hf _ _ _ _ _ _ Et), (transfer_balance f Hf _ _ _ _ _ _ Et).
    repeat split; try assumption. rewrite Eb, B0, Z.eqb_refl, Z.mod_small by lia. destruct (_ =? b); lia.
  - intros Er X. apply taken_collision in X. elim (Hcol Er X).
Qed.
Theorem sender_nonce w block t o w' : transaction_ok t -> acceptable f w t -> intrinsic t <= t_gas_limit t -> ~ oversized (fl_rev f block) t ->
  t_sender t <> DriverAddress -> code w DriverAddress = [] -> code w (t_sender t) = [] ->
  (t_recipient t = None -> ~ taken f (started f (fl_rev f block) w t) (fl_create f (t_sender t) (t_nonce t))) ->
  runs_to f w block t o w' -> nonce w' (t_sender t) = t_nonce t + 1 /\ code w' (t_sender t) = [].
Proof.
  intros Ht A I O Nd Cd Cs Hcol R. destruct (accepted_run f Hf w block t Ht A I O) as (res & w1 & C & _ & R').
  destruct (runs_unique f _ _ _ _ _ _ _ R' R) as [<- <-].
  destruct (sender_guarded w block t res w1 Ht A I Nd Cd Cs Hcol C) as (G1 & _ & G3 & _).
  destruct (result_settled f (fl_rev f block) t res w1 (fst (tx_result f (fl_rev f block) t res w1)) (snd (tx_result f (fl_rev f block) t res w1)) (eq_sym (surjective_pairing _))) as [-> | ->]; [auto|].
  rewrite (settled_nonce f Hf), (settled_code f Hf). auto.
Qed.
Theorem no_replay w block t o w' block' : transaction_ok t -> acceptable f w t -> intrinsic t <= t_gas_limit t -> ~ oversized (fl_rev f block) t ->
  t_sender t <> DriverAddress -> code w DriverAddress = [] -> code w (t_sender t) = [] ->
  (t_recipient t = None -> ~ taken f (started f (fl_rev f block) w t) (fl_create f (t_sender t) (t_nonce t))) ->
  runs_to f w block t o w' -> runs_to f w' block' t (Receipt empty_receipt) w'.
Proof.
  intros Ht A I O Nd Cd Cs Hcol R. pose proof (intrinsic_pos t) as Ip. pose proof (acceptable_sensible f Hf w t A ltac:(lia)) as S.
  destruct (sender_nonce w block t o w' Ht A I O Nd Cd Cs Hcol R) as [N _].
  apply unacceptable_run; try assumption. intros [A1 _ _ _]. lia.
Qed.
Theorem sender_pays_at_most total w block t o w' : supply ctx total -> total w < 2 ^ 256 -> transaction_ok t -> acceptable f w t -> intrinsic t <= t_gas_limit t -> ~ oversized (fl_rev f block) t ->
  t_sender t <> DriverAddress -> code w DriverAddress = [] -> code w (t_sender t) = [] ->
  (t_recipient t = None -> ~ taken f (started f (fl_rev f block) w t) (fl_create f (t_sender t) (t_nonce t))) ->
  runs_to f w block t o w' -> rt_gas_used (receipt_of o) <= t_gas_limit t ->
  balance w (t_sender t) - t_value t - t_gas_price t * rt_gas_used (receipt_of o) <= balance w' (t_sender t).
Proof.
  intros Hs Tw Ht A I O Nd Cd Cs Hcol R U. pose proof (intrinsic_pos t) as Ip. pose proof (acceptable_sensible f Hf w t A ltac:(lia)) as S.
  destruct (gas_used_bounds f Hf w block t o w' Ht A I O R) as (U0 & _).
  destruct (run_cases f Hf w block t o w' Ht S R) as [N|A' I'|A' I' O'|res w1 A' I' O' C K E]; try contradiction; [lia|].
  destruct (sender_guarded w block t res w1 Ht A I Nd Cd Cs Hcol C) as (_ & _ & _ & G4).
  assert (E' := E). unfold tx_result in E'. pose proof (to_price _ Ht) as Pw. assert (Pw' := Pw). destruct Pw' as [P0 _].
  destruct res as [res|]; [|injection E' as -> ->; cbn [receipt_of rt_gas_used] in *; exact G4].
  destruct (negb _ && _); injection E' as -> ->; cbn [receipt_of rt_gas_used] in *; [exact G4|].
  assert (Up : 0 <= billed (fl_rev f block) t res).
  { assert (intrinsic t / (if rev_ge (fl_rev f block) London then 5 else 2) <= intrinsic t) by (destruct (rev_ge (fl_rev f block) London); apply Z.div_le_upper_bound; lia). lia. }
  assert (Hdd : forall w2 x b, total w2 <= total w - t_gas_price t * t_gas_limit t -> total (snd (rc_selfdestruct rc w2 x b)) <= total w - t_gas_price t * t_gas_limit t).
  { intros w2 x b Hw. pose proof (su_destruct _ _ Hs w2 x b). lia. }
  assert (X : total w1 <= total w - t_gas_price t * t_gas_limit t /\ code w1 DriverAddress = []).
  { apply (tx_call_steady f Hf _ _ (supply_steady f Hf Ha Had total Hs (fun x => x <= total w - t_gas_price t * t_gas_limit t) Hdd) w block t (Some res) w1); try assumption;
      rewrite ?(started_total f Hf _ Hs), ?(started_code f Hf Ha) by assumption; auto.
    - intros a0 _. split; [lia|exact Cd].
    - intros _ c -> _. rewrite (bump_total f _ Hs), (bump_code f Hf), (started_total f Hf _ Hs), (started_code f Hf Ha) by assumption. split; [apply Z.eqb_neq; apply (ad_driver _ Had)|split; [lia|exact Cd]].
    - intros b w2 w3 [G2 C2] _ Et. rewrite (transfer_total f Hf _ Hs _ _ _ _ _ Et), (transfer_code f Hf _ _ _ _ _ _ Et). auto.
    - intros _ _. split; [lia|exact Cd]. }
  destruct X as [X _]. pose proof (su_balance _ _ Hs w1 (t_sender t)) as B. pose proof (Z.mul_nonneg_nonneg _ _ P0 Up) as M.
  assert (Lt : balance w1 (t_sender t) + t_gas_price t * (t_gas_limit t - billed (fl_rev f block) t res) < 2 ^ 256).
  { rewrite Z.mul_sub_distr_l. lia. }
  destruct (settled_balance f Hf total Hs w1 t (billed (fl_rev f block) t res) Pw (conj Up U) (proj2 (to_limit _ Ht)) Lt) as [-> _]. lia.
Qed.
End Guarded.
End TxFacts4.
