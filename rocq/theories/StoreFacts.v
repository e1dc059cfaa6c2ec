(** SSTORE with a host that keeps storage as hosts should. *)
From Verif Require Import Base Host SpecEvm SpecCall SpecVm MemFacts SpecFacts SpecHost GoStorage Vm SpecStep StepFacts Client ClientFacts OpFacts OpFacts4.
From Coq Require Import Lia ZArith List Bool.
Import ListNotations.

Lemma status_refund_berlin rv cold o c n : (rev_ge rv Berlin = true -> cold = true -> o = c) ->
  sstore_refund rv cold (GetStorageStatus o c n) = eip_sstore_refund rv o c n.
Proof.
  intros Hd. destruct (rev_ge rv Berlin) eqn:Eb; [apply status_refund; auto|].
  rewrite <- (status_refund rv false o c n) by discriminate. destruct cold; [|reflexivity].
  unfold sstore_refund, restore_refund. rewrite Eb. reflexivity.
Qed.

Section Store.
Context {W : Type}.
Variable g : setting W.
Hypothesis Hg : setting_ok g.
Variable committed : W -> Z -> Z -> Z.
Notation hst := (g_host g).
Hypothesis Hs : storage_host hst committed.
Notation same_storage := (SpecHost.same_storage g committed).
Notation stores := (SpecHost.stores g committed).

Theorem op_sstore_eip v w rv code m si rest k x cold w1 : at_op g v code m si 0x55 -> static m = false -> si_stack si = rest ++ [x; k] ->
  slot_cold hst rv w (msg_recipient m) k = (cold, w1) ->
  let a := msg_recipient m in
  let cost := eip_sstore_cost rv cold (committed w a k) (h_get_storage hst w a k) x in
  let refund := eip_sstore_refund rv (committed w a k) (h_get_storage hst w a k) x in
  let w2 := snd (h_set_storage hst w1 a k x) in
  (msg_gas m <= 2300 -> out_of_gas g v w rv code m si) /\
  (2300 < msg_gas m < cost -> fails_with g v w rv code m si EVMC_OUT_OF_GAS w2) /\
  (2300 < msg_gas m -> cost <= msg_gas m ->
     steps_to g v w rv code m si (running rv (si_pc si + 1) (msg_gas m - cost) (si_refunds si + refund) rest (whole_words (si_mem si)) (si_ret si)) w2) /\
  (forall a' k', h_get_storage hst w2 a' k' = if (a' =? a) && (k' =? k) then x else h_get_storage hst w a' k') /\
  (forall a' k', committed w2 a' k' = committed w a' k').
Proof.
  intros Ho Hst Hstk Hc a cost refund w2. destruct Hs as [S1 S2 S3 S4 S5].
  assert (Hx : is_word x). { pose proof (sk_words _ _ _ (at_args _ _ _ _ _ _ Ho)) as X. rewrite Hstk in X. apply Forall_app in X. destruct X as [_ X]. exact (Forall_inv X). }
  assert (Hw1 : forall a' k', h_get_storage hst w1 a' k' = h_get_storage hst w a' k' /\ committed w1 a' k' = committed w a' k').
  { intros a' k'. unfold slot_cold in Hc. destruct (rev_ge rv Berlin); [|injection Hc as _ <-; auto].
    pose proof (S4 w a k a' k') as X. fold a in Hc. destruct (h_access_storage hst w a k) as [st w0]. injection Hc as _ <-. exact X. }
  assert (Hcold : rev_ge rv Berlin = true -> cold = true -> committed w a k = h_get_storage hst w a k).
  { intros Eb Ec. unfold slot_cold in Hc. rewrite Eb in Hc. destruct (Z.eq_dec (committed w a k) (h_get_storage hst w a k)) as [D|D]; [exact D|].
    pose proof (S5 w a k D) as X. fold a in Hc. destruct (h_access_storage hst w a k) as [st w0]. cbn in X. subst st. injection Hc as <- _. discriminate Ec. }
  pose proof (S1 w1 a k x Hx) as E. destruct (h_set_storage hst w1 a k x) as [st w2'] eqn:Es. cbn [fst] in E.
  destruct (Hw1 a k) as [E1 E2]. rewrite E1, E2 in E.
  destruct (op_sstore g Hg v w rv code m si rest k x cold w1 st w2' Ho Hst Hstk Hc Es) as (R1 & R2 & R3). rewrite E in R2, R3.
  rewrite status_cost in R2, R3. rewrite (status_refund_berlin rv cold _ _ x Hcold) in R3.
  split; [exact R1|]. split; [exact R2|]. split; [exact R3|]. unfold w2. split.
  - intros a' k'. rewrite <- Es. rewrite S2 by exact Hx. destruct (_ && _); [reflexivity|apply Hw1].
  - intros a' k'. rewrite <- Es. rewrite S3. apply Hw1.
Qed.

(** ** Sums of refunds *)
(** what a slot with committed value [o] and current value [c] may still cost *)
Definition owed (rv : revision) (o c : Z) : Z := if negb (o =? 0) && (c =? 0) then clears_schedule rv else 0.
Lemma refund_owed rv o c n : owed rv o n - owed rv o c <= eip_sstore_refund rv o c n.
Proof.
  unfold owed, eip_sstore_refund, sload_gas, sstore_set_gas, sstore_reset_gas, clears_schedule.
  destruct (rev_ge rv London), (rev_ge rv Berlin);
  repeat match goal with |- context [?a =? ?b] => destruct (Z.eqb_spec a b); subst; cbn [negb andb]; try lia; try congruence end.
Qed.
Definition slot := (Z * Z)%type.
Definition slot_dec (p q : slot) : {p = q} + {p <> q}. Proof. decide equality; apply Z.eq_dec. Defined.
Definition owes (rv : revision) (w : W) (p : slot) : Z := owed rv (committed w (fst p) (snd p)) (h_get_storage hst w (fst p) (snd p)).
Fixpoint sum (f : slot -> Z) (l : list slot) : Z := match l with [] => 0 | p :: l => f p + sum f l end.
Lemma sum_ext f f' l : (forall p, In p l -> f p = f' p) -> sum f l = sum f' l.
Proof. induction l as [|p l IH]; intros E; cbn; [reflexivity|]. rewrite (E p), IH; [reflexivity| |left; reflexivity]. intros; apply E; right; assumption. Qed.
Lemma sum_change f f' l p : NoDup l -> In p l -> (forall q, In q l -> q <> p -> f' q = f q) -> sum f' l = sum f l + (f' p - f p).
Proof.
  induction l as [|q l IH]; intros Hn Hin Hf; [destruct Hin|]. inversion Hn as [|? ? N1 N2]; subst. cbn [sum]. destruct (slot_dec q p) as [->|D].
  - rewrite (sum_ext f' f l); [lia|]. intros r Hr. apply Hf; [right; exact Hr|]. intros ->. contradiction.
  - rewrite (Hf q) by (auto; left; reflexivity). rewrite IH; [lia|exact N2| |intros; apply Hf; [right|]; assumption]. destruct Hin; congruence.
Qed.
Lemma sum_nonneg f l : (forall p, 0 <= f p) -> 0 <= sum f l. Proof. intros Hf. induction l as [|p l IH]; cbn; [lia|]. pose proof (Hf p). lia. Qed.

Lemma sstore_stack v w rv code m si so w' : at_op g v code m si 0x55 -> steps_to g v w rv code m si so w' -> so_step so = STEP_RUNNING ->
  static m = false /\ (exists rest k x, si_stack si = rest ++ [x; k]) /\ 2300 < msg_gas m.
Proof.
  intros Ho (v' & E & _) Hr. destruct (one_step g Hg v w rv code m si _ Ho) as (so2 & w2 & v2 & E2 & _ & R & _). rewrite E in E2. injection E2 as <- <- <-.
  unfold ref_step, step in R. change (f_pc (frame_in m w si)) with (si_pc si) in R. rewrite (at_code _ _ _ _ _ _ Ho) in R.
  change (instruction 0x55) with (Some (mkInstr 2 0 0 Istanbul true)) in R. cbv iota beta in R. cbn [in_since in_stateful in_args in_results in_fee] in R. rewrite istanbul in R. cbn [negb andb] in R.
  assert (F : forall e f', one_result rv si (Fail e f') so w' -> False) by (intros e f' [[Q _ _ _ _ _ _ _ _] _]; congruence).
  destruct (static m) eqn:Est; [destruct (F _ _ R)|]. split; [reflexivity|].
  change (f_stack (frame_in m w si)) with (rev (si_stack si)) in R. rewrite zlen_rev in R.
  destruct (Z.ltb_spec (zlen (si_stack si)) 2) as [|Hh]; [destruct (F _ _ R)|]. destruct (_ <? _) in R; [destruct (F _ _ R)|].
  unfold charge in R. change (f_gas (frame_in m w si)) with (msg_gas m) in R. destruct (_ <? _) in R; [destruct (F _ _ R)|].
  set (f0 := with_gas (msg_gas m - 0) (frame_in m w si)) in R. change (SpecEvm.exec hst (nested g) (g_keccak g) m rv code (is_dest code) 0x55 f0) with (i_sstore hst m rv f0) in R.
  unfold i_sstore in R. change (f_stack f0) with (rev (si_stack si)) in R. change (f_gas f0) with (msg_gas m - 0) in R.
  destruct (rev (si_stack si)) as [|k [|x s]] eqn:El.
  - rewrite <- zlen_rev, El in Hh. cbn in Hh. lia.
  - rewrite <- zlen_rev, El in Hh. cbn in Hh. lia.
  - split. { exists (rev s), k, x. rewrite <- (rev_involutive (si_stack si)), El. cbn [rev]. rewrite <- app_assoc. reflexivity. }
    destruct (Z.leb_spec (msg_gas m - 0) 2300); [destruct (F _ _ R)|lia].
Qed.

Lemma stores_inv rv w : (forall a k, h_get_storage hst w a k = committed w a k) -> forall r w', stores rv w r w' ->
  exists ks, NoDup ks /\ (forall p, ~ In p ks -> owes rv w' p = 0) /\ sum (owes rv w') ks <= r.
Proof.
  intros H0. induction 1 as [|r w1 v code m si so w2 Hst IH Ho St Hr|r w1 w2 Hst IH [M1 M2]].
  - exists []. split; [constructor|]. split; [|cbn; lia]. intros [a k] _. unfold owes. cbn [fst snd]. rewrite H0. unfold owed.
    destruct (_ =? 0); reflexivity.
  - destruct IH as (ks & N & Z0 & Hsum).
    destruct (sstore_stack v w1 rv code m si so w2 Ho St Hr) as (Hstat & (rest & k & x & Hstk) & Hgas).
    destruct (slot_cold hst rv w1 (msg_recipient m) k) as [cold wc] eqn:Hc.
    destruct (op_sstore_eip v w1 rv code m si rest k x cold wc Ho Hstat Hstk Hc) as (_ & R2 & R3 & R4 & R5).
    set (a := msg_recipient m) in *. set (c := h_get_storage hst w1 a k) in *. set (o := committed w1 a k) in *.
    destruct St as (v' & E & _).
    destruct (Z.lt_ge_cases (msg_gas m) (eip_sstore_cost rv cold o c x)) as [Hx|Hx].
    { destruct (R2 (conj Hgas Hx)) as (so2 & (v2 & E2 & _) & [Q _ _ _ _ _ _ _ _]). rewrite E in E2. injection E2 as -> -> ->. congruence. }
    destruct (R3 Hgas Hx) as (v2 & E2 & _). rewrite E in E2. injection E2 as -> Ew ->. cbn [running so_refund]. rewrite <- Ew in *.
    set (p := (a, k) : slot).
    assert (Hq : forall q : slot, q <> p -> owes rv w2 q = owes rv w1 q).
    { intros [a' k'] Hq. unfold owes. cbn [fst snd]. rewrite R4, R5. destruct (Z.eqb_spec a' a), (Z.eqb_spec k' k); cbn [andb]; try reflexivity. subst. exfalso. apply Hq. reflexivity. }
    assert (Hp : owes rv w2 p - owes rv w1 p <= eip_sstore_refund rv o c x).
    { unfold owes, p. cbn [fst snd]. rewrite R4, R5, !Z.eqb_refl. cbn [andb]. apply refund_owed. }
    replace (r + (si_refunds si + eip_sstore_refund rv o c x - si_refunds si)) with (r + eip_sstore_refund rv o c x) by lia.
    destruct (in_dec slot_dec p ks) as [Hin|Hin].
    + exists ks. split; [exact N|]. split.
      * intros q Hnq. rewrite Hq; [apply Z0; exact Hnq|]. intros ->. contradiction.
      * rewrite (sum_change (owes rv w1) (owes rv w2) ks p N Hin); [lia|]. intros; apply Hq; assumption.
    + exists (p :: ks). split; [constructor; assumption|]. split.
      * intros q Hnq. rewrite Hq; [apply Z0; intros K; apply Hnq; right; exact K|]. intros ->. apply Hnq. left. reflexivity.
      * cbn [sum]. rewrite (sum_ext (owes rv w2) (owes rv w1) ks); [pose proof (Z0 p Hin); lia|]. intros q K. apply Hq. intros ->. contradiction.
  - destruct IH as (ks & N & Z0 & Hsum). assert (X : forall p, owes rv w2 p = owes rv w1 p) by (intros; unfold owes; rewrite M1, M2; reflexivity).
    exists ks. split; [exact N|]. split; [intros p Hp; rewrite X; auto|]. rewrite (sum_ext _ (owes rv w1)); auto.
Qed.
Theorem stores_nonneg rv w r w' : (forall a k, h_get_storage hst w a k = committed w a k) -> stores rv w r w' -> 0 <= r.
Proof.
  intros H0 Hr. destruct (stores_inv rv w H0 r w' Hr) as (ks & _ & _ & Hsum).
  assert (0 <= sum (owes rv w') ks); [|lia]. apply sum_nonneg. intros p. unfold owes, owed, clears_schedule. destruct (_ && _), (rev_ge rv London); lia.
Qed.
End Store.
