(** Money, nonces and accounts: invariants of whole transactions. *)
From Verif Require Import Base Host SpecEvm SpecVm Vm Client GoAdapter Floria SpecTx MemFacts ClientFacts SpecHost StaticFacts RunInv FloriaFacts FloriaInv TxFacts TxFacts2.
From Coq Require Import Lia ZArith List Bool.
Import ListNotations.

Section TxFacts3.
Context {W : Type}.
Variable f : floria W.
Hypothesis Hf : floria_ok f.
Hypothesis Ha : accounts_ok (fl_ctx f).
Hypothesis Had : addresses_ok f.
Notation ctx := (fl_ctx f).
Notation rc := (x_rc (fl_ctx f)).
Notation WW := (W * rctx)%type.
Let Hc := fo_ctx f Hf.
Notation balance := (rc_balance rc).
Notation nonce := (rc_nonce rc).
Notation code := (rc_code rc).

(** ** Transfers *)
Lemma transfer_spec w v s b w' : transferValue f w v s b = Some w' ->
  w' = w /\ (v mod 2 ^ 256 = 0 \/ s = b) \/
  s <> b /\ 0 <= v mod 2 ^ 256 <= balance w s /\ balance w b + v mod 2 ^ 256 < 2 ^ 256 /\
    w' = x_set_balance ctx (x_set_balance ctx w s (balance w s - v mod 2 ^ 256)) b (balance w b + v mod 2 ^ 256).
Proof.
  unfold transferValue. pose proof (Z.mod_pos_bound v (2 ^ 256) eq_refl) as V. set (u := v mod 2 ^ 256) in *. clearbody u.
  destruct (Z.eqb_spec u 0); [intros E; injection E as <-; left; auto|]. destruct (Z.ltb_spec (balance w s) u); [discriminate|].
  destruct (Z.eqb_spec s b); [intros E; injection E as <-; left; auto|].
  pose proof (xo_balance _ Hc w s) as [B1 B2]. pose proof (xo_balance _ Hc w b) as [B3 B4].
  destruct (Z_lt_le_dec (balance w b + u) (2 ^ 256)) as [L|L].
  - rewrite !(Z.mod_small (balance w b + u)) by lia. rewrite (Z.mod_small (balance w s - u)) by lia. destruct (_ || _); [discriminate|]. intros E. injection E as <-. right. repeat split; try lia; assumption.
  - assert (M : (balance w b + u) mod 2 ^ 256 = balance w b + u - 2 ^ 256) by (symmetry; apply Z.mod_unique with 1; lia).
    rewrite M. destruct (Z.ltb_spec (balance w b + u - 2 ^ 256) (balance w b)); [discriminate|lia].
Qed.
Lemma word_sub x y : is_word x -> 0 <= y <= x -> is_word (x - y). Proof. unfold is_word. lia. Qed.
Lemma transfer_nonce w v s b w' a : transferValue f w v s b = Some w' -> nonce w' a = nonce w a.
Proof. intros E. destruct (transfer_spec _ _ _ _ _ E) as [[-> _]|(_ & _ & _ & ->)]; [reflexivity|]. rewrite !(xo_set_balance_nonce _ Hc). reflexivity. Qed.
Lemma transfer_code w v s b w' a : transferValue f w v s b = Some w' -> code w' a = code w a.
Proof. intros E. destruct (transfer_spec _ _ _ _ _ E) as [[-> _]|(_ & _ & _ & ->)]; [reflexivity|]. rewrite !(xo_set_balance_code _ Hc). reflexivity. Qed.
Lemma transfer_balance w v s b w' a : transferValue f w v s b = Some w' ->
  balance w' a = balance w a - (if a =? s then v mod 2 ^ 256 else 0) + (if a =? b then v mod 2 ^ 256 else 0).
Proof.
  intros E. destruct (transfer_spec _ _ _ _ _ E) as [[-> [V| ->]]|(N & V & L & ->)]; [rewrite V; destruct (a =? s), (a =? b); lia|lia|].
  pose proof (xo_balance _ Hc w s) as B1. pose proof (xo_balance _ Hc w b) as [B3 B4].
  rewrite (xo_set_balance _ Hc) by (split; lia). rewrite (xo_set_balance _ Hc) by (apply word_sub; assumption).
  destruct (Z.eqb_spec a b), (Z.eqb_spec a s); subst; try congruence; lia.
Qed.
Lemma bump_nonce w s c a : nonce (bump f w s c) a = if a =? c then 1 else if a =? s then u64 (nonce w s + 1) else nonce w a.
Proof.
  unfold bump. rewrite (xo_set_nonce _ Hc) by lia. destruct (a =? c); [reflexivity|]. apply (xo_set_nonce _ Hc). unfold u64. apply Z.mod_pos_bound. reflexivity.
Qed.
Lemma bump_code w s c a : code (bump f w s c) a = code w a.
Proof. unfold bump. rewrite !(xo_set_nonce_code _ Hc). reflexivity. Qed.
Lemma bump_balance w s c a : balance (bump f w s c) a = balance w a.
Proof. unfold bump. rewrite !(xo_set_nonce_balance _ Hc). reflexivity. Qed.
Lemma collision_nonce w c : collision f w c = false -> nonce w c = 0.
Proof. unfold collision. destruct (Z.eqb_spec (nonce w c) 0); [auto|discriminate]. Qed.
Lemma created_not_driver s n c : (c = fl_create f s n \/ exists x h, c = fl_create2 f s x h) -> c <> DriverAddress.
Proof. intros [-> |(x & h & ->)]; [apply (ad_driver _ Had)|apply (ad_driver2 _ Had)]. Qed.
Lemma slots_code a keys b : forall w, code (access_slots f w a keys) b = code w b.
Proof.
  induction keys as [|k keys IH]; intros w; [reflexivity|]. unfold access_slots in *. cbn [fold_left]. rewrite IH. apply (ao_slot _ Ha).
Qed.
Lemma access_code l b : forall w, code (access_all f w l) b = code w b.
Proof.
  induction l as [|[a keys] l IH]; intros w; [reflexivity|]. unfold access_all in *. cbn [fold_left fst snd]. rewrite IH, slots_code. apply (ao_account _ Ha).
Qed.
(** the state in which an accepted transaction's call is made *)
Lemma pay_word w t : acceptable f w t -> sensible t -> is_word (t_gas_price t) -> is_word (balance w (t_sender t) - t_gas_price t * t_gas_limit t).
Proof. intros [_ _ _ A] [S1 _] [P1 _]. apply word_sub; [apply (xo_balance _ Hc)|]. nia. Qed.
Lemma pay_balance w t a : transaction_ok t -> acceptable f w t -> sensible t ->
  balance (pay f w t) a = balance w a - (if a =? t_sender t then t_gas_price t * t_gas_limit t else 0).
Proof.
  intros Ht A S. unfold pay. rewrite (xo_set_balance _ Hc) by (apply pay_word; try assumption; apply (to_price _ Ht)). destruct (Z.eqb_spec a (t_sender t)) as [->|]; lia.
Qed.
Lemma started_balance rev w t a : transaction_ok t -> acceptable f w t -> sensible t ->
  balance (started f rev w t) a = balance w a - (if a =? t_sender t then t_gas_price t * t_gas_limit t else 0).
Proof.
  intros Ht A S. rewrite <- (pay_balance w t a Ht A S). unfold started. destruct (t_recipient t); rewrite ?(xo_set_nonce_balance _ Hc); apply (access_reads f Hf).
Qed.
Lemma nonce_next w t : transaction_ok t -> acceptable f w t -> 0 <= t_nonce t + 1 < 2 ^ 64.
Proof. intros Ht A. pose proof (to_nonce _ Ht). pose proof (ac_nonce_max _ _ _ A). lia. Qed.
Lemma started_nonce rev w t a : transaction_ok t -> acceptable f w t ->
  nonce (started f rev w t) a = if (a =? t_sender t) && match t_recipient t with Some _ => true | None => false end then t_nonce t + 1 else nonce w a.
Proof.
  intros Ht A. pose proof (nonce_next w t Ht A) as N.
  assert (E : nonce (access_all f (pay f w t) (listed f rev t)) a = nonce w a).
  { destruct (access_reads f Hf (listed f rev t) a (pay f w t)) as [_ ->]. unfold pay. apply (xo_set_balance_nonce _ Hc). }
  unfold started. destruct (t_recipient t); [rewrite (xo_set_nonce _ Hc) by exact N|]; destruct (a =? t_sender t); cbn [andb]; auto.
Qed.
Lemma started_code rev w t a : code (started f rev w t) a = code w a.
Proof.
  assert (E : code (access_all f (pay f w t) (listed f rev t)) a = code w a).
  { rewrite access_code. unfold pay. apply (xo_set_balance_code _ Hc). }
  unfold started. destruct (t_recipient t); [rewrite (xo_set_nonce_code _ Hc)|]; exact E.
Qed.
Lemma settled_nonce w t g a : nonce (settled f w t g) a = nonce w a.
Proof. unfold settled. apply (xo_set_balance_nonce _ Hc). Qed.
Lemma settled_code w t g a : code (settled f w t g) a = code w a.
Proof. unfold settled. apply (xo_set_balance_code _ Hc). Qed.
Lemma settled_others w t g a : a <> t_sender t -> balance (settled f w t g) a = balance w a.
Proof.
  intros N. unfold settled. rewrite (xo_set_balance _ Hc) by (apply Z.mod_pos_bound; reflexivity). destruct (Z.eqb_spec a (t_sender t)); [contradiction|reflexivity].
Qed.
(** where a transaction ends: the state after its call, settled or not *)
Lemma result_settled rev t res w1 o w' : (o, w') = tx_result f rev t res w1 -> w' = w1 \/ w' = settled f w1 t (rt_gas_used (receipt_of o)).
Proof.
  unfold tx_result. destruct res as [res|]; [|intros E; injection E as _ ->; auto]. destruct (negb _ && _); intros E; injection E as -> ->; auto.
Qed.

(** ** The call of a transaction *)
Lemma tx_call_steady inert P (HS : steady f inert P) w block t res w1 : transaction_ok t -> acceptable f w t -> intrinsic t <= t_gas_limit t -> t_sender t <> DriverAddress ->
  (forall a, t_recipient t = Some a -> P (started f (fl_rev f block) w t)) ->
  (t_recipient t = None -> forall c, c = fl_create f (t_sender t) (t_nonce t) ->
    collision f (started f (fl_rev f block) w t) c = false -> inert c = false /\ P (bump f (started f (fl_rev f block) w t) (t_sender t) c)) ->
  (forall b w1 w2, P w1 -> balance w1 (t_sender t) = balance (started f (fl_rev f block) w t) (t_sender t) ->
     transferValue f w1 (t_value t) (t_sender t) b = Some w2 -> P w2) ->
  (t_recipient t = None -> collision f (started f (fl_rev f block) w t) (fl_create f (t_sender t) (t_nonce t)) = true -> P (started f (fl_rev f block) w t)) ->
  tx_calls f w block t res w1 -> P w1.
Proof.
  intros Ht A I Nd HP Hcr Htr Hcol C. pose proof (intrinsic_pos t) as Ip. destruct (to_limit _ Ht) as [_ L].
  assert (Hp : params_ok (tx_params t (t_gas_limit t - intrinsic t))) by (apply tx_params_ok; [exact Ht|lia]).
  rewrite tx_calls_eq in C.
  destruct (calls_ref f Hf _ _ _ _ _ _ Hp (tx_depth block t) C) as [R _].
  set (w0 := started f (fl_rev f block) w t) in *.
  assert (N0 : t_recipient t = None -> nonce w0 (t_sender t) = t_nonce t).
  { intros E. unfold w0. rewrite started_nonce, E, andb_false_r by assumption. symmetry. apply (ac_nonce _ _ _ A). }
  replace w1 with (snd (ref_call f w0 (tx_context_of block t) (tx_kind t) (tx_params t (t_gas_limit t - intrinsic t)))) by (rewrite R; reflexivity).
  apply (ref_call_steady f inert P HS); cbn [tx_params cp_sender cp_recipient cp_value cp_salt]; unfold tx_kind.
  - intros _. exact Nd.
  - destruct (t_recipient t); intros [X|X]; discriminate X.
  - destruct (t_recipient t); [discriminate|reflexivity].
  - destruct (t_recipient t) as [a|] eqn:E; [intros _; exact (HP a eq_refl)|discriminate].
  - destruct (t_recipient t) as [a|] eqn:E; [discriminate|]. intros _ n c -> [[_ Hn]|[X _]] Hx; [|discriminate X]. rewrite (N0 eq_refl) in Hn. exact (Hcr eq_refl c Hn Hx).
  - intros _ w2 b w3 P2 V _ Et. apply (Htr b w2 w3); try assumption. destruct V as [-> |(c & _ & _ & ->)]; [reflexivity|apply bump_balance].
  - destruct (t_recipient t) as [a|] eqn:E; intros [X|[X Y]]; try discriminate X.
    cbn [createAddress] in Y. rewrite (N0 eq_refl) in Y. exact (Hcol eq_refl Y).
Qed.

(** ** The money supply *)
Section Supply.
Variable total : W -> Z.
Hypothesis Hs : supply ctx total.
Lemma transfer_total w v s b w' : transferValue f w v s b = Some w' -> total w' = total w.
Proof.
  intros E. destruct (transfer_spec _ _ _ _ _ E) as [[-> _]|(N & V & L & ->)]; [reflexivity|].
  pose proof (xo_balance _ Hc w s) as B1. pose proof (xo_balance _ Hc w b) as [B3 B4].
  rewrite (su_set _ _ Hs) by (split; lia). rewrite (su_set _ _ Hs) by (apply word_sub; assumption). rewrite (xo_set_balance _ Hc) by (apply word_sub; assumption).
  destruct (Z.eqb_spec b s); [congruence|lia].
Qed.
Lemma bump_total w s c : total (bump f w s c) = total w.
Proof. unfold bump. rewrite !(su_nonce _ _ Hs). reflexivity. Qed.
Lemma supply_steady (good : Z -> Prop) : (forall w a b, good (total w) -> good (total (snd (rc_selfdestruct rc w a b)))) ->
  steady f (fun a => a =? DriverAddress) (fun w => good (total w) /\ code w DriverAddress = []).
Proof.
  intros Hd. split.
  - intros w a [G C]. rewrite (su_account _ _ Hs). split; [exact G|]. rewrite <- C. apply (ao_account _ Ha).
  - intros w a k [G C]. rewrite (su_slot _ _ Hs). split; [exact G|]. rewrite <- C. apply (ao_slot _ Ha).
  - intros w a k v _ [G C]. rewrite (su_store _ _ Hs). split; [exact G|]. rewrite <- C. apply (ao_store _ Ha).
  - intros w a k v _ [G C]. rewrite (su_transient _ _ Hs). split; [exact G|]. rewrite <- C. apply (ao_transient _ Ha).
  - intros w a b Hi [G C]. split; [apply Hd; exact G|]. rewrite <- C. apply (ao_destruct _ Ha). apply Z.eqb_neq in Hi. congruence.
  - intros w a ts d _ [G C]. rewrite (su_log _ _ Hs). split; [exact G|]. rewrite <- C. apply (ao_log _ Ha).
  - intros w a E [_ C]. apply Z.eqb_eq in E. subst a. exact C.
  - intros w v s b w' _ [G C] E. rewrite (transfer_total _ _ _ _ _ E), (transfer_code _ _ _ _ _ _ E). auto.
  - intros w s n c _ [G C] _ Hn. rewrite bump_total, bump_code. split; [|auto]. apply Z.eqb_neq. apply (created_not_driver s n). exact Hn.
  - intros w c cd E [G C]. rewrite (su_code _ _ Hs). split; [exact G|]. apply Z.eqb_neq in E. rewrite (xo_set_code_others _ Hc); [exact C|congruence].
  - reflexivity.
  - apply (ad_state _ Had).
  - apply (ad_state2 _ Had).
Qed.
Lemma slots_total a keys : forall w, total (access_slots f w a keys) = total w.
Proof. induction keys as [|k keys IH]; intros w; [reflexivity|]. unfold access_slots in *. cbn [fold_left]. rewrite IH. apply (su_slot _ _ Hs). Qed.
Lemma access_total l : forall w, total (access_all f w l) = total w.
Proof. induction l as [|[a keys] l IH]; intros w; [reflexivity|]. unfold access_all in *. cbn [fold_left fst snd]. rewrite IH, slots_total. apply (su_account _ _ Hs). Qed.
Lemma pay_total w t : transaction_ok t -> acceptable f w t -> sensible t -> total (pay f w t) = total w - t_gas_price t * t_gas_limit t.
Proof. intros Ht A S. unfold pay. rewrite (su_set _ _ Hs); [lia|]. apply pay_word; try assumption. apply (to_price _ Ht). Qed.
Lemma started_total rev w t : transaction_ok t -> acceptable f w t -> sensible t -> total (started f rev w t) = total w - t_gas_price t * t_gas_limit t.
Proof.
  intros Ht A S. rewrite <- (pay_total w t Ht A S). unfold started. destruct (t_recipient t); rewrite ?(su_nonce _ _ Hs); apply access_total.
Qed.
Lemma settled_balance w t used : is_word (t_gas_price t) -> 0 <= used <= t_gas_limit t -> t_gas_limit t < 2 ^ 54 -> balance w (t_sender t) + t_gas_price t * (t_gas_limit t - used) < 2 ^ 256 ->
  balance (settled f w t used) (t_sender t) = balance w (t_sender t) + t_gas_price t * (t_gas_limit t - used) /\
  total (settled f w t used) = total w + t_gas_price t * (t_gas_limit t - used).
Proof.
  intros [P1 _] U L B. unfold settled. pose proof (xo_balance _ Hc w (t_sender t)) as [B1 B2].
  assert (M1 : (t_gas_limit t - used) mod 2 ^ 64 = t_gas_limit t - used) by (apply Z.mod_small; assert (2 ^ 54 < 2 ^ 64) by reflexivity; lia).
  assert (M2 : (balance w (t_sender t) + t_gas_price t * (t_gas_limit t - used)) mod 2 ^ 256 = balance w (t_sender t) + t_gas_price t * (t_gas_limit t - used)) by (apply Z.mod_small; nia).
  rewrite M1, M2. assert (Wd : is_word (balance w (t_sender t) + t_gas_price t * (t_gas_limit t - used))) by (split; nia).
  rewrite (xo_set_balance _ Hc) by exact Wd. rewrite Z.eqb_refl. rewrite (su_set _ _ Hs) by exact Wd. split; [reflexivity|lia].
Qed.
(** what happens to the sum of all balances, in terms of what SELFDESTRUCT does to it *)
Lemma tx_total (good : Z -> Prop) w block t o w' : (forall w a b, good (total w) -> good (total (snd (rc_selfdestruct rc w a b)))) ->
  transaction_ok t -> acceptable f w t -> intrinsic t <= t_gas_limit t -> ~ oversized (fl_rev f block) t -> t_sender t <> DriverAddress -> code w DriverAddress = [] ->
  runs_to f w block t o w' -> good (total w - t_gas_price t * t_gas_limit t) -> (forall x, good x -> x <= total w - t_gas_price t * t_gas_limit t) -> total w < 2 ^ 256 ->
  rt_gas_used (receipt_of o) <= t_gas_limit t ->
  exists x, good x /\ total w' = x + t_gas_price t * (t_gas_limit t - rt_gas_used (receipt_of o)).
Proof.
  intros Hd Ht A I O Nd Cd R G Gle Tw U. pose proof (intrinsic_pos t) as Ip. pose proof (acceptable_sensible f Hf w t A ltac:(lia)) as S.
  destruct (gas_used_bounds f Hf w block t o w' Ht A I O R) as (U0 & _).
  destruct (run_cases f Hf w block t o w' Ht S R) as [N|A' I'|A' I' O'|res w1 A' I' O' C K E]; try contradiction; [lia|].
  assert (X : good (total w1) /\ code w1 DriverAddress = []).
  { apply (tx_call_steady _ _ (supply_steady good Hd) w block t res w1); try assumption; rewrite ?started_total, ?started_code by assumption; auto.
    - intros _ c -> _. rewrite bump_total, bump_code, started_total, started_code by assumption. split; [apply Z.eqb_neq; apply (ad_driver _ Had)|auto].
    - intros b w2 w3 [G2 C2] _ Et. rewrite (transfer_total _ _ _ _ _ Et), (transfer_code _ _ _ _ _ _ Et). auto. }
  destruct X as [X _]. exists (total w1). split; [exact X|].
  assert (E' := E). unfold tx_result in E'.
  destruct res as [res|]; [|injection E' as -> ->; cbn [receipt_of rt_gas_used] in *; lia].
  destruct (negb _ && _); injection E' as -> ->; cbn [receipt_of rt_gas_used] in *; [lia|]. pose proof (to_price _ Ht) as Pw. assert (Pw' := Pw). destruct Pw' as [P0 _].
  assert (Up : 0 <= billed (fl_rev f block) t res).
  { assert (intrinsic t / (if rev_ge (fl_rev f block) London then 5 else 2) <= intrinsic t) by (destruct (rev_ge (fl_rev f block) London); apply Z.div_le_upper_bound; lia). lia. }
  apply settled_balance; [exact Pw|split; assumption|apply (to_limit _ Ht)|].
  pose proof (su_balance _ _ Hs w1 (t_sender t)) as B. specialize (Gle _ X). nia.
Qed.
(** transactions that are not the driver's create no money, and fees are paid *)
Theorem supply_bounded w block t o w' : transaction_ok t -> sensible t -> t_sender t <> DriverAddress -> code w DriverAddress = [] -> total w < 2 ^ 256 ->
  runs_to f w block t o w' -> rt_gas_used (receipt_of o) <= t_gas_limit t -> total w' <= total w - t_gas_price t * rt_gas_used (receipt_of o).
Proof.
  intros Ht S Nd Cd Tw R U. pose proof (to_price _ Ht) as [P0 _]. pose proof S as [S1 _].
  destruct (run_cases f Hf w block t o w' Ht S R) as [N -> ->|A I -> ->|A I O -> ->|res w1 A I O C K E]; cbn [receipt_of rt_gas_used empty_receipt].
  - lia.
  - rewrite pay_total by assumption. lia.
  - rewrite pay_total by assumption. nia.
  - destruct (tx_total (fun x => x <= total w - t_gas_price t * t_gas_limit t) w block t o w') as (x & X & ->); try assumption; try lia.
    intros w2 a b Hw. pose proof (su_destruct _ _ Hs w2 a b). lia.
Qed.
(** if SELFDESTRUCT destroys no money, the fees are all that is lost *)
Theorem supply_exact w block t o w' : (forall w a b, total (snd (rc_selfdestruct rc w a b)) = total w) ->
  transaction_ok t -> sensible t -> t_sender t <> DriverAddress -> code w DriverAddress = [] -> total w < 2 ^ 256 -> ~ oversized (fl_rev f block) t ->
  runs_to f w block t o w' -> rt_gas_used (receipt_of o) <= t_gas_limit t -> total w' = total w - t_gas_price t * rt_gas_used (receipt_of o).
Proof.
  intros Hd Ht S Nd Cd Tw No R U.
  destruct (run_cases f Hf w block t o w' Ht S R) as [N -> ->|A I -> ->|A I O -> ->|res w1 A I O C K E]; cbn [receipt_of rt_gas_used empty_receipt].
  - lia.
  - apply pay_total; assumption.
  - contradiction.
  - destruct (tx_total (fun x => x = total w - t_gas_price t * t_gas_limit t) w block t o w') as (x & -> & ->); try assumption; try lia.
    intros w2 a b Hw. rewrite Hd. exact Hw.
Qed.
End Supply.
End TxFacts3.
