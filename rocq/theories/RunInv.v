(** Properties of the host's state that every action of a running account preserves. *)
From Verif Require Import Base Host SpecEvm SpecCall SpecVm MemFacts JumpFacts SpecFacts SpecHost FrameFacts OpFacts ApiFacts StaticFacts.
From Coq Require Import Lia ZArith List Bool.
Import ListNotations.

(** [P] survives whatever the account [a] does apart from calls *)
Record keeps {W} (H : host W) (P : W -> Prop) (a : Z) : Prop := mkKeeps {
  kp_store : forall w k v, P w -> P (snd (h_set_storage H w a k v));
  kp_transient : forall w k v, P w -> P (h_set_transient H w a k v);
  kp_destruct : forall w b, P w -> P (snd (h_selfdestruct H w a b));
  kp_log : forall w d ts, P w -> P (h_emit_log H w a d ts);
}.
(** what a message sent while running [m] looks like *)
Definition sends (m m' : message) : Prop :=
  msg_depth m' = msg_depth m + 1 /\
  match msg_kind m' with
  | K_CREATE | K_CREATE2 => msg_sender m' = msg_recipient m /\ msg_recipient m' = 0 /\ msg_flags m' = 0 /\ Z.odd (msg_flags m) = false
  | K_CALL => msg_sender m' = msg_recipient m /\ (msg_flags m' = msg_flags m \/ msg_flags m' = EVMC_STATIC) /\ (Z.odd (msg_flags m) = true -> msg_value m' = 0)
  | K_CALLCODE => msg_sender m' = msg_recipient m /\ msg_recipient m' = msg_recipient m /\ msg_flags m' = msg_flags m
  | K_DELEGATECALL => msg_sender m' = msg_sender m /\ msg_recipient m' = msg_recipient m /\ msg_flags m' = msg_flags m /\ msg_value m' = msg_value m
  end.

Section Frame.
Context {W : Type}.
Variable H : host W.
Variable keccak : list Z -> Z.
Variables (m : message) (rv : revision) (code : list Z) (vd : Z -> bool).
Notation all_out := (@all_out W).

Section Request.
Variable P : W -> Prop.
Definition req_ok (q : request (W := W)) : Prop :=
  match q with
  | Now o => all_out P o
  | Ask w m' k => P w /\ sends m m' /\ forall r w', P w' -> all_out P (k r w')
  end.
Lemma req_charge c f k : P (f_world f) -> req_ok (k (with_gas (f_gas f - c) f)) -> req_ok (q_charge c f k).
Proof. intros Hf Hk. unfold q_charge. destruct (_ <? _); [exact Hf|exact Hk]. Qed.
Lemma create_req two f : Z.odd (msg_flags m) = false -> P (f_world f) -> req_ok (q_create H m rv two f).
Proof.
  intros Hs Hf. unfold q_create. cbv zeta.
  destruct two; destruct (f_stack f) as [|x1 [|x2 [|x3 [|x4 s]]]]; try exact Hf.
  all: destruct (1024 <? msg_depth m); [exact Hf|]; apply req_charge; [exact Hf|];
    match goal with |- req_ok (if ?b then _ else _) => destruct b end; [exact Hf|]; apply req_charge; [exact Hf|];
    match goal with |- req_ok (if ?b then _ else _) => destruct b end; [exact Hf|];
    (split; [exact Hf|]); (split; [split; [reflexivity|cbn; auto]|]); intros r w' Hw'; destruct (cr_status r); exact Hw'.
Qed.
Lemma call_req k f : survives_access H P -> P (f_world f) -> req_ok (q_call H m rv k f).
Proof.
  intros Hv Hf.
  assert (A : forall f a, P (f_world f) -> P (f_world (snd (account_cost H rv f a)))).
  { intros f0 a Hf0. destruct (account_warms H rv f0 a) as (c & w1 & -> & X). cbn [snd f_world with_world]. eapply warms_survive; eassumption. }
  unfold q_call. cbv zeta.
  destruct k; destruct (f_stack f) as [|x1 [|x2 [|x3 [|x4 [|x5 [|x6 [|x7 s]]]]]]]; try exact Hf.
  all: destruct (1024 <? msg_depth m); [exact Hf|]; apply req_charge; [exact Hf|].
  all: try match goal with |- req_ok (if ?b then _ else _) => destruct b eqn:Est; [exact Hf|] end.
  all: match goal with |- context [account_cost H rv ?ff ?aa] => pose proof (A ff aa Hf) as X; destruct (account_cost H rv ff aa) as [c f2] end; cbn [snd] in X.
  all: apply req_charge; [exact X|].
  all: match goal with |- req_ok (if ?b then _ else _) => destruct b; [exact X|] end.
  all: split; [exact X|]; split; [split; [reflexivity|cbn [msg_kind msg_sender msg_recipient msg_flags msg_value]; auto]|intros r w' Hw'; exact Hw'].
  split; [reflexivity|]. split; [auto|]. intros Hs. unfold static in Est. rewrite Hs, andb_true_r in Est. apply negb_false_iff, Z.eqb_eq in Est. exact Est.
Qed.
Lemma answer_ok call q : req_ok q -> (forall w m', P w -> sends m m' -> P (snd (call w m'))) -> all_out P (answer call q).
Proof.
  intros Hq Hc. destruct q as [o|w m' k]; cbn [answer req_ok] in *; [exact Hq|]. destruct Hq as (Q1 & Q2 & Q3).
  pose proof (Hc w m' Q1 Q2) as X. destruct (call w m') as [r w']. apply Q3. exact X.
Qed.
Lemma asked_ok q w m' : req_ok q -> asked q = Some (w, m') -> P w /\ sends m m'.
Proof. destruct q as [o|w0 m0 k]; cbn [asked req_ok]; intros Hq E; [discriminate|]. injection E as <- <-. tauto. Qed.

Hypothesis Hv : survives_access H P.
(** nothing but accesses happens in static mode *)
Hypothesis Hk : Z.odd (msg_flags m) = false -> keeps H P (msg_recipient m).

Lemma out_charge c f k : P (f_world f) -> all_out P (k (with_gas (f_gas f - c) f)) -> all_out P (charge c f k).
Proof. intros Hf H1. unfold charge. destruct (_ <? _); [exact Hf|exact H1]. Qed.
Lemma sstore_keeps f : Z.odd (msg_flags m) = false -> P (f_world f) -> all_out P (i_sstore H m rv f).
Proof.
  intros Hs Hf. unfold i_sstore. destruct (f_stack f) as [|k [|v s]]; try exact Hf. destruct (_ <=? _); [exact Hf|].
  destruct (rev_ge rv Berlin).
  - pose proof (sv_slot _ _ Hv (f_world f) (self m) k Hf) as X. destruct (h_access_storage H _ _ _) as [st w]. cbn [snd] in X. cbn [f_world with_world].
    pose proof (kp_store _ _ _ (Hk Hs) w k v X) as Y. unfold self in *. destruct (h_set_storage H w _ k v) as [st' w']. apply out_charge; exact Y.
  - pose proof (kp_store _ _ _ (Hk Hs) (f_world f) k v Hf) as Y. unfold self in *. destruct (h_set_storage H _ _ k v) as [st' w']. apply out_charge; exact Y.
Qed.
Lemma tstore_keeps f : Z.odd (msg_flags m) = false -> P (f_world f) -> all_out P (i_tstore H m f).
Proof. intros Hs Hf. unfold i_tstore. destruct (f_stack f) as [|k [|v s]]; try exact Hf. apply (kp_transient _ _ _ (Hk Hs)). exact Hf. Qed.
Lemma log_keeps n f : Z.odd (msg_flags m) = false -> P (f_world f) -> all_out P (i_log H m n f).
Proof. intros Hs Hf. unfold i_log. destruct (f_stack f) as [|k [|v s]]; try exact Hf. apply out_charge; [exact Hf|]. apply (kp_log _ _ _ (Hk Hs)). exact Hf. Qed.
Lemma selfdestruct_keeps f : Z.odd (msg_flags m) = false -> P (f_world f) -> all_out P (i_selfdestruct H m rv f).
Proof.
  intros Hs Hf. unfold i_selfdestruct. destruct (f_stack f) as [|a s]; try exact Hf. cbv zeta.
  set (new := (0 <? _) && _). clearbody new.
  assert (G : forall (cold : bool) f1, P (f_world f1) -> all_out P (charge ((if new then 25000 else 0) + (if cold then 2600 else 0)) f1 (fun f2 =>
    let '(first, w) := h_selfdestruct H (f_world f2) (self m) (addr_of a) in
    Halt Stopped [] (with_pc (f_pc f + 1) (with_stack s (if first && negb (rev_ge rv London) then add_refund 24000 (with_world w f2) else with_world w f2)))))).
  { intros cold f1 Hf1. apply out_charge; [exact Hf1|]. cbn [f_world with_gas].
    pose proof (kp_destruct _ _ _ (Hk Hs) (f_world f1) (addr_of a) Hf1) as Y. unfold self. destruct (h_selfdestruct H _ _ _) as [first w]. cbn [snd] in Y.
    destruct (first && _); exact Y. }
  destruct (rev_ge rv Berlin).
  - pose proof (sv_account _ _ Hv (f_world f) (addr_of a) Hf) as X. destruct (h_access_account H _ _) as [st w]. exact (G _ (with_world w f) X).
  - exact (G false f Hf).
Qed.

Lemma modifying_cases b : is_modifying b = true -> In b modifying.
Proof. intros E. apply existsb_exists in E. destruct E as (x & Hx & E). apply Z.eqb_eq in E. subst. exact Hx. Qed.
Lemma asking_cases b : is_asking b = true -> In b asking.
Proof. intros E. apply existsb_exists in E. destruct E as (x & Hx & E). apply Z.eqb_eq in E. subst. exact Hx. Qed.

Variable call : W -> message -> cresult * W.
Lemma step_keeps f : (forall w m', P w -> sends m m' -> P (snd (call w m'))) -> P (f_world f) -> all_out P (step H call keccak m rv code vd f).
Proof.
  intros Hc Hw. unfold step. set (b := code_at code (f_pc f)).
  destruct (instruction b) as [i|] eqn:Ei; [|destruct (_ <? _); exact Hw]. pose proof (instr_byte b i Ei) as Hb.
  destruct (negb _); [exact Hw|]. destruct (in_stateful i && static m) eqn:Es; [exact Hw|].
  destruct (Z.ltb_spec (zlen (f_stack f)) (in_args i)) as [|Ha]; [exact Hw|]. destruct (_ <? _); [exact Hw|].
  apply out_charge; [exact Hw|]. rewrite (table_modifying b i Hb Ei) in Es.
  pose proof (exec_effect H call keccak m rv code vd b i (with_gas (f_gas f - in_fee i) f) Hb Ei Ha) as X.
  assert (Hw' : P (f_world (with_gas (f_gas f - in_fee i) f))) by exact Hw. set (f0 := with_gas (f_gas f - in_fee i) f) in *. clearbody f0. clear Hw.
  destruct (existsb (Z.eqb b) modifying) eqn:Em.
  - apply modifying_cases in Em. unfold static in Es. cbn [andb] in Es. clearbody b. clear X.
    unfold modifying in Em. cbn [In] in Em. 
    repeat match type of Em with _ \/ _ => destruct Em as [Em|Em] end; try contradiction; subst b; cbn [SpecEvm.exec];
      try (apply sstore_keeps; assumption); try (apply tstore_keeps; assumption); try (apply selfdestruct_keeps; assumption);
      try (apply answer_ok; [apply create_req; assumption|exact Hc]); apply log_keeps; assumption.
  - destruct (is_asking b) eqn:Eq.
    + apply asking_cases in Eq. clearbody b. clear X. unfold asking in Eq. cbn [In] in Eq.
      repeat match type of Eq with _ \/ _ => destruct Eq as [Eq|Eq] end; try contradiction; subst b; try discriminate Em; cbn [SpecEvm.exec];
        (apply answer_ok; [apply call_req; assumption|exact Hc]).
    + destruct (SpecEvm.exec _ _ _ _ _ _ _ b f0) as [f'|h d f'|e f']; cbn [StaticFacts.all_out effect] in *.
      * destruct X as (_ & _ & _ & _ & X5 & _). eapply warms_survive; [exact Hv|exact Hw'|exact (X5 Eq Em)].
      * destruct X as [(Hb' & _ & _ & X & _)|(_ & X & _)].
        -- destruct Hb' as [Hb'|Hb']; [rewrite (X Hb'); exact Hw'|]. rewrite Hb' in Em. discriminate Em.
        -- rewrite X. exact Hw'.
      * destruct X as [_ X]. eapply warms_survive; [exact Hv|exact Hw'|apply X]. intros E. rewrite E in Em. discriminate Em.
Qed.
Lemma run_keeps n : (forall w m', P w -> sends m m' -> P (snd (call w m'))) -> forall f, P (f_world f) -> all_out P (run_for H call keccak m rv code vd n f).
Proof.
  intros Hc. induction n as [|n IH]; intros f Hw; [exact Hw|]. cbn [run_for]. pose proof (step_keeps f Hc Hw) as X.
  destruct (step _ _ _ _ _ _ _ f); cbn [StaticFacts.all_out] in X; [apply IH; exact X|exact X|exact X].
Qed.
Lemma asks_keeps f w m' : P (f_world f) -> asks H m rv code f = Some (w, m') -> P w /\ sends m m'.
Proof.
  intros Hw. unfold asks. set (b := code_at code (f_pc f)). destruct (instruction b) as [i|] eqn:Ei; [|discriminate].
  pose proof (instr_byte b i Ei) as Hb.
  destruct (negb (rev_ge rv (in_since i))); [discriminate|]. cbn [orb]. destruct (in_stateful i && static m) eqn:Es; [discriminate|]. cbn [orb].
  rewrite (table_modifying b i Hb Ei) in Es.
  destruct (_ || _); [discriminate|]. set (f1 := with_gas (f_gas f - in_fee i) f). assert (Hf1 : P (f_world f1)) by exact Hw. clearbody f1.
  assert (Q : forall two, b = 0xF0 \/ b = 0xF5 -> asked (q_create H m rv two f1) = Some (w, m') -> P w /\ sends m m').
  { intros two Hb' E. apply (asked_ok _ _ _ (create_req two f1 ltac:(destruct Hb' as [-> | ->]; exact Es) Hf1) E). }
  assert (R : forall k, asked (q_call H m rv k f1) = Some (w, m') -> P w /\ sends m m').
  { intros k E. apply (asked_ok _ _ _ (call_req k f1 Hv Hf1) E). }
  clearbody b. clear Ei Hb Es. intros E.
  assert (D : In b asking \/ ~ In b asking) by (destruct (in_dec Z.eq_dec b asking); tauto). destruct D as [D|D].
  - unfold asking in D. cbn [In] in D. repeat match type of D with _ \/ _ => destruct D as [D|D] end; try contradiction; subst b; eauto.
  - exfalso. unfold asking in D. cbn [In] in D. destruct b as [|p|p]; try discriminate E.
    do 8 (destruct p as [p|p|]; try discriminate E); apply D; repeat (first [left; reflexivity|right]).
Qed.
End Request.

(** a step depends on nested calls only through the one it asks for *)
Lemma step_ext call1 call2 f : (forall w m', asks H m rv code f = Some (w, m') -> call1 w m' = call2 w m') ->
  step H call1 keccak m rv code vd f = step H call2 keccak m rv code vd f.
Proof.
  unfold asks, step. set (b := code_at code (f_pc f)). destruct (instruction b) as [i|] eqn:Ei; [|reflexivity].
  destruct (negb (rev_ge rv (in_since i))); [reflexivity|]. cbn [orb]. destruct (in_stateful i && static m) eqn:Es; [reflexivity|]. cbn [orb].
  destruct (_ <? in_args i); [reflexivity|]. cbn [orb]. destruct (1024 <? _); [reflexivity|]. cbn [orb]. unfold charge.
  destruct (f_gas f <? in_fee i); [reflexivity|]. set (f1 := with_gas (f_gas f - in_fee i) f). clearbody f1.
  assert (A : forall q : request, (forall w m', asked q = Some (w, m') -> call1 w m' = call2 w m') -> answer call1 q = answer call2 q).
  { intros [o|w m' k] Hq; cbn [answer]; [reflexivity|]. rewrite (Hq w m' eq_refl). reflexivity. }
  clearbody b. clear Ei Es. intros Hq.
  assert (D : In b asking \/ ~ In b asking) by (destruct (in_dec Z.eq_dec b asking); tauto). destruct D as [D|D].
  - unfold asking in D. cbn [In] in D. repeat match type of D with _ \/ _ => destruct D as [D|D] end; try contradiction; subst b;
      cbn [SpecEvm.exec]; unfold i_create, i_call; apply A; exact Hq.
  - unfold asking in D. cbn [In] in D. destruct b as [|p|p]; try reflexivity.
    do 8 (destruct p as [p|p|]; try reflexivity); exfalso; apply D; repeat (first [left; reflexivity|right]).
Qed.
Lemma run_ext P call1 call2 : survives_access H P -> (Z.odd (msg_flags m) = false -> keeps H P (msg_recipient m)) -> (forall w m', P w -> sends m m' -> call1 w m' = call2 w m') ->
  (forall w m', P w -> sends m m' -> P (snd (call2 w m'))) -> forall n f, P (f_world f) ->
  run_for H call1 keccak m rv code vd n f = run_for H call2 keccak m rv code vd n f.
Proof.
  intros Hv Hk Hc Hp. induction n as [|n IH]; intros f Hf; [reflexivity|]. cbn [run_for].
  rewrite (step_ext call1 call2 f).
  - pose proof (step_keeps P Hv Hk call2 f Hp Hf) as X. destruct (step H call2 keccak m rv code vd f) as [fr'|h o fr'|e fr']; try reflexivity. apply IH. exact X.
  - intros y m' Hask. destruct (asks_keeps P Hv call1 f y m' Hf Hask) as [Hy Hs]. apply Hc; assumption.
Qed.
End Frame.

(** code that is empty does nothing *)
Lemma empty_code_run {W} (H : host W) call keccak m rv w : 0 <= msg_gas m ->
  result_of (run_for H call keccak m rv [] (is_dest []) (S (Z.to_nat (msg_gas m))) (initial m w)) = (mkRes EVMC_SUCCESS (msg_gas m) 0 [] 0, w).
Proof.
  intros Hg. cbn [run_for]. unfold step. cbn [f_pc initial f_stack]. change (code_at [] 0) with 0. cbn [instruction in_since in_stateful in_args in_results in_fee].
  replace (rev_ge rv Istanbul) with true by (destruct rv; reflexivity). cbn. unfold charge. cbn [f_gas].
  cbn [f_gas initial]. destruct (Z.ltb_spec (msg_gas m) 0); [lia|]. cbn. rewrite ?Z.sub_0_r. reflexivity.
Qed.
Lemma empty_code_world {W} (H : host W) call keccak m rv w n :
  snd (result_of (run_for H call keccak m rv [] (is_dest []) n (initial m w))) = w.
Proof.
  destruct n as [|n]; [reflexivity|]. cbn [run_for]. unfold step. cbn [f_pc initial f_stack]. change (code_at [] 0) with 0. cbn [instruction in_since in_stateful in_args in_results in_fee].
  replace (rev_ge rv Istanbul) with true by (destruct rv; reflexivity). cbn. unfold charge. cbn [f_gas].
  cbn [f_gas initial]. destruct (msg_gas m <? 0); reflexivity.
Qed.
