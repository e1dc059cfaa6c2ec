(** Invariants of the executions that make up a transaction. *)
From Verif Require Import Base Host SpecEvm SpecVm Vm Client GoAdapter Floria SpecTx MemFacts ClientFacts SpecHost StaticFacts RunInv FloriaFacts.
From Coq Require Import Lia ZArith List Bool.
Import ListNotations.

Section Inv.
Context {W : Type}.
Variable f : floria W.
Notation ctx := (fl_ctx f).
Notation rc := (x_rc (fl_ctx f)).
Notation WW := (W * rctx)%type.
Notation H := (lift_host (go_host rc) (tx_of f)).

(** all runs of a program satisfy [E]; if they end in states satisfying [Post] (and keep the run context), it ends in one satisfying [D] *)
Inductive every (E : WW -> revision -> list Z -> message -> Prop) (Post D : WW -> Prop) : prog WW -> Prop :=
| ev_done : forall r x, D x -> every E Post D (Done r x)
| ev_enter : forall x rev code m k, E x rev code m -> (forall r x', Post x' -> snd x' = snd x -> every E Post D (k r x')) -> every E Post D (Enter x rev code m k).

Lemma play_every (E : WW -> revision -> list Z -> message -> Prop) (Post D : WW -> Prop) (ex : executor WW) p : (forall x rev code m, E x rev code m -> Post (snd (ex x rev code m)) /\ snd (snd (ex x rev code m)) = snd x) ->
  every E Post D p -> D (snd (play ex p)).
Proof.
  intros Hex. induction 1 as [r x Hd|x rev code m k He Hk IH]; cbn [play]; [exact Hd|].
  destruct (Hex _ _ _ _ He) as [X1 X2]. destruct (ex x rev code m) as [r x']. apply IH; assumption.
Qed.
Lemma play_ext (E : WW -> revision -> list Z -> message -> Prop) (Post D : WW -> Prop) (ex1 ex2 : executor WW) p : (forall x rev code m, E x rev code m -> Post (snd (ex1 x rev code m)) /\ snd (snd (ex1 x rev code m)) = snd x /\ ex1 x rev code m = ex2 x rev code m) ->
  every E Post D p -> play ex1 p = play ex2 p.
Proof.
  intros Hex. induction 1 as [r x Hd|x rev code m k He Hk IH]; cbn [play]; [reflexivity|].
  destruct (Hex _ _ _ _ He) as (X1 & X2 & <-). destruct (ex1 x rev code m) as [r x']. apply IH; assumption.
Qed.

(** ** Depth and static flag *)
(** the run context of a running frame *)
Definition framed (x : WW) (m : message) : Prop := r_depth (snd x) = msg_depth m + 1 /\ r_static (snd x) = Z.odd (msg_flags m).
Lemma run_message_framed r kind p recipient code hash : r_static r = Z.odd (msg_flags (run_message f r kind p recipient code hash)) /\
  r_depth r = msg_depth (run_message f r kind p recipient code hash) + 1.
Proof. cbn [run_message message_of msg_flags msg_depth p_static p_depth]. split; [destruct (r_static r); reflexivity|lia]. Qed.

Lemma Call_framed r w kind p k D :
  (forall res w, every (fun x _ _ m => framed x m /\ msg_depth m <= 1024 /\ (r_static r = true -> Z.odd (msg_flags m) = true)) (fun _ => True) D (k res w)) ->
  every (fun x _ _ m => framed x m /\ msg_depth m <= 1024 /\ (r_static r = true -> Z.odd (msg_flags m) = true)) (fun _ => True) D (Call f r w kind p k).
Proof.
  intros Hk. unfold Call. destruct (Z.ltb_spec MaxRecursiveDepth (r_depth r)) as [|Hr]; [apply Hk|]. unfold MaxRecursiveDepth in Hr.
  destruct (call_code f w kind p) as [code hash].
  destruct (is_create kind && _); [apply Hk|].
  destruct (match kind with GoStaticCall | GoDelegateCall => Some _ | _ => _ end) as [w2|]; [|apply Hk].
  destruct (handleStateContract f w2 _ _ _ _) as [[res w3]|]; [apply Hk|].
  destruct (handlePrecompiledContract f _ _ _ _) as [res|]; [apply Hk|].
  match goal with |- every _ _ _ (if ?b then _ else _) => destruct b end; [apply Hk|].
  destruct (_ <? _); [apply Hk|].
  set (r' := deeper r _).
  apply ev_enter.
  - match goal with |- context [run_message f r' kind p ?q code hash] => destruct (run_message_framed r' kind p q code hash) as [F1 F2] end.
    split; [split; cbn [snd]; [exact F2|exact F1]|]. split.
    + assert (r_depth r' = r_depth r + 1) by reflexivity. lia.
    + intros Hs. rewrite <- F1. unfold r'. cbn [deeper r_static]. rewrite Hs. destruct kind; reflexivity.
  - intros cr x _ _. destruct (go_result_of cr) as [g|e]; [|apply Hk]. destruct (negb _); [apply Hk|].
    destruct (is_create kind); [|apply Hk]. destruct (deployed _ _ _ _ _). apply Hk.
Qed.

(** the run context of a frame does not change while it runs *)
Lemma access_context r : survives_access H (fun x : WW => snd x = r).
Proof.
  split; cbn [lift_host h_access_account h_access_storage]; intros;
    match goal with |- snd (snd (let '(_, _) := ?q in _)) = _ => destruct q end; assumption.
Qed.
Lemma keeps_context r a : keeps H (fun x : WW => snd x = r) a.
Proof.
  split; cbn [lift_host h_access_account h_access_storage h_set_storage h_set_transient h_selfdestruct h_emit_log]; intros;
    try (match goal with |- snd (snd (let '(_, _) := ?q in _)) = _ => destruct q end; assumption); assumption.
Qed.
Notation K := (fl_keccak f).
Definition deep (s : bool) : WW -> revision -> list Z -> message -> Prop :=
  fun x _ _ m => framed x m /\ msg_depth m <= 1024 /\ (s = true -> Z.odd (msg_flags m) = true).
Lemma handler_deep fb x m : every (deep (r_static (snd x))) (fun _ => True) (fun x' => snd x' = snd x) (handler f fb x m).
Proof.
  destruct x as [w r]. unfold handler. destruct (_ =? _); [|apply ev_done; reflexivity]. apply Call_framed. intros res w'. apply ev_done. reflexivity.
Qed.
Lemma eval_context fb n : forall x rv code m, snd (snd (eval H K (handler f fb) n x rv code m)) = snd x.
Proof.
  induction n as [|n IH]; intros x rv code m; cbn [eval]; [reflexivity|]. unfold evaluate.
  apply (result_world (fun y : WW => snd y = snd x)). apply run_keeps; [apply access_context|intros _; apply keeps_context| |reflexivity].
  intros y m' Hy _. rewrite <- Hy. apply (play_every (deep (r_static (snd y))) (fun _ => True) (fun x' => snd x' = snd y)); [|apply handler_deep].
  intros. split; [exact Logic.I|apply IH].
Qed.
(** a frame's nested calls find their run context, so what would happen otherwise is irrelevant *)
Lemma handler_same fb1 fb2 x m : r_depth (snd x) = msg_depth m -> handler f fb1 x m = handler f fb2 x m.
Proof. intros E. destruct x as [w r]. cbn [snd] in E. unfold handler. rewrite E, Z.eqb_refl. reflexivity. Qed.
Lemma eval_same fb1 fb2 n : forall x rv code m, framed x m -> eval H K (handler f fb1) n x rv code m = eval H K (handler f fb2) n x rv code m.
Proof.
  induction n as [|n IH]; intros x rv code m Hx; cbn [eval]; [reflexivity|]. unfold evaluate. apply (f_equal result_of).
  set (c1 := fun w m => play (eval H K (handler f fb1) n) (handler f fb1 w m)). set (c2 := fun w m => play (eval H K (handler f fb2) n) (handler f fb2 w m)).
  assert (C : forall y m', snd y = snd x -> sends m m' -> c1 y m' = c2 y m').
  { intros y m' Hy Hs. unfold c1, c2. assert (E : r_depth (snd y) = msg_depth m') by (destruct Hs as [-> _]; rewrite Hy; apply Hx).
    rewrite (handler_same fb1 fb2 y m' E). eapply play_ext; [|apply handler_deep].
    intros z rv' code' m2 (F1 & _). split; [exact Logic.I|]. split; [apply eval_context|apply IH; exact F1]. }
  apply (run_ext H K m rv code (is_dest code) (fun y : WW => snd y = snd x)); [apply access_context|intros _; apply keeps_context|exact C| |reflexivity].
  intros y m' Hy _. unfold c2. rewrite <- Hy. apply (play_every (deep (r_static (snd y))) (fun _ => True) (fun x' => snd x' = snd y)); [|apply handler_deep].
  intros. split; [exact Logic.I|apply eval_context].
Qed.

(** ** Properties of the state that whole transactions preserve *)
(** [inert]: accounts that never run code.  [P] survives what other accounts do, and what the processor does. *)
Record steady (inert : Z -> bool) (P : W -> Prop) : Prop := mkSteady {
  sd_account : forall w a, P w -> P (snd (rc_access_account rc w a));
  sd_slot : forall w a k, P w -> P (snd (rc_access_storage rc w a k));
  sd_store : forall w a k v, inert a = false -> P w -> P (snd (rc_set_storage rc w a k v));
  sd_transient : forall w a k v, inert a = false -> P w -> P (rc_set_transient rc w a k v);
  sd_destruct : forall w a b, inert a = false -> P w -> P (snd (rc_selfdestruct rc w a b));
  sd_log : forall w a ts d, inert a = false -> P w -> P (rc_emit_log rc w a ts d);
  sd_code : forall w a, inert a = true -> P w -> rc_code rc w a = [];
  sd_transfer : forall w v s b w', inert s = false -> P w -> transferValue f w v s b = Some w' -> P w';
  sd_create : forall w s n c, inert s = false -> P w -> collision f w c = false ->
    (c = fl_create f s n \/ exists x h, c = fl_create2 f s x h) -> inert c = false /\ P (bump f w s c);
  sd_deploy : forall w c code, inert c = false -> P w -> P (x_set_code ctx w c code);
  sd_driver : inert DriverAddress = true;
  sd_create_1 : forall s n, fl_create f s n <> StateContractAddress;
  sd_create_2 : forall s x h, fl_create2 f s x h <> StateContractAddress;
}.
Section Steady.
Variable inert : Z -> bool.
Variable P : W -> Prop.
Hypothesis HS : steady inert P.

Definition calm (m : message) (code : list Z) : Prop := (inert (msg_recipient m) = true -> code = []) /\ msg_recipient m <> StateContractAddress.
Notation inP := (fun x : WW => P (fst x)).
Definition E_calm : WW -> revision -> list Z -> message -> Prop := fun x _ code m => P (fst x) /\ calm m code.
Lemma access_steady : survives_access H inP.
Proof.
  split; cbn [lift_host go_host h_access_account h_access_storage].
  - intros [w r] b Hw. cbn [fst snd] in *. pose proof (sd_account _ _ HS w b Hw) as X. destruct (rc_access_account rc w b). exact X.
  - intros [w r] b k Hw. cbn [fst snd] in *. pose proof (sd_slot _ _ HS w b k Hw) as X. destruct (rc_access_storage rc w b k). exact X.
Qed.
Lemma keeps_steady a : inert a = false -> keeps H inP a.
Proof.
  intros Ha. split; cbn [lift_host go_host h_access_account h_access_storage h_set_storage h_set_transient h_selfdestruct h_emit_log].
  - intros [w r] k v Hw. cbn [fst snd] in *. pose proof (sd_store _ _ HS w a k v Ha Hw) as X. destruct (rc_set_storage rc w a k v). exact X.
  - intros [w r] k v Hw. cbn [fst snd] in *. apply (sd_transient _ _ HS); assumption.
  - intros [w r] b Hw. cbn [fst snd] in *. pose proof (sd_destruct _ _ HS w a b Ha Hw) as X. destruct (rc_selfdestruct rc w a b). exact X.
  - intros [w r] d ts Hw. cbn [fst snd] in *. apply (sd_log _ _ HS); assumption.
Qed.
Lemma no_state_contract w s b input gas : (s <> DriverAddress \/ b <> StateContractAddress) ->
  match handleStateContract f w s b input gas with Some (_, w') => w' = w | None => b <> StateContractAddress end.
Proof.
  intros Hsb. unfold handleStateContract. destruct (Z.eqb_spec b StateContractAddress) as [->|Hb]; cbn [negb]; [|exact Hb].
  destruct (Z.eqb_spec s DriverAddress) as [->|Hs]; cbn [negb]; [destruct Hsb; contradiction|reflexivity].
Qed.
Lemma Call_steady r w kind p k D :
  (kind <> GoDelegateCall -> cp_sender p <> DriverAddress) ->
  (kind = GoDelegateCall \/ kind = GoCallCode -> inert (cp_recipient p) = false /\ cp_recipient p <> StateContractAddress) ->
  (is_create kind = true -> cp_recipient p = 0) ->
  (is_create kind = false -> P w) ->
  (is_create kind = true -> forall n c, n = rc_nonce rc w (cp_sender p) -> (kind = GoCreate /\ c = fl_create f (cp_sender p) n \/ kind = GoCreate2 /\ exists x h, c = fl_create2 f (cp_sender p) x h) ->
     collision f w c = false -> inert c = false /\ P (bump f w (cp_sender p) c)) ->
  (kind <> GoDelegateCall -> forall w1 b w2, P w1 -> (w1 = w \/ exists c, is_create kind = true /\ collision f w c = false /\ w1 = bump f w (cp_sender p) c) -> (is_create kind = false -> b = cp_recipient p) ->
     transferValue f w1 (cp_value p) (cp_sender p) b = Some w2 -> P w2) ->
  (MaxRecursiveDepth < r_depth r \/ is_create kind = true /\ collision f w (createAddress f kind (cp_sender p) (rc_nonce rc w (cp_sender p)) (cp_salt p) (snd (call_code f w kind p))) = true ->
     every E_calm inP D (k (Some no_result) w)) ->
  (forall res w, P w -> every E_calm inP D (k res w)) -> every E_calm inP D (Call f r w kind p k).
Proof.
  intros Hsend Hdel Hrec Hpw Hcr Htr Hk0 Hk. unfold Call. destruct (Z.ltb_spec MaxRecursiveDepth (r_depth r)); [apply Hk0; left; assumption|].
  destruct (call_code f w kind p) as [code hash] eqn:Ecode. cbn [snd] in Hk0.
  set (created := if is_create kind then _ else 0).
  assert (Ac : is_create kind = true -> (kind = GoCreate /\ created = fl_create f (cp_sender p) (rc_nonce rc w (cp_sender p)) \/ kind = GoCreate2 /\ exists x h, created = fl_create2 f (cp_sender p) x h)).
  { intros E. unfold created. rewrite E. destruct kind; try discriminate E; cbn [createAddress]; eauto 6. }
  destruct (is_create kind && collision f w created) eqn:Ecol; [apply Hk0; right; apply andb_true_iff in Ecol; unfold created in Ecol; destruct Ecol as [E1 E2]; rewrite E1 in E2; auto|].
  set (w1 := if is_create kind then bump f w (cp_sender p) created else w). set (recipient := if is_create kind then created else cp_recipient p).
  assert (P1 : P w1 /\ (is_create kind = true -> inert created = false)).
  { unfold w1. destruct (is_create kind) eqn:Ek; [|split; [apply Hpw; reflexivity|discriminate]]. cbn [andb] in Ecol.
    destruct (Hcr eq_refl _ _ eq_refl (Ac eq_refl) Ecol). auto. }
  destruct P1 as [P1 Cc].
  assert (C1 : inert recipient = true -> code = []).
  { unfold recipient. destruct (is_create kind) eqn:Ek; [rewrite (Cc eq_refl); discriminate|]. intros Hi.
    unfold call_code in Ecode. rewrite Ek in Ecode. cbn [andb] in Ecode. injection Ecode as <- _.
    destruct kind; try discriminate Ek; cbn [code_source].
    - apply (sd_code _ _ HS); [exact Hi|apply Hpw; reflexivity].
    - apply (sd_code _ _ HS); [exact Hi|apply Hpw; reflexivity].
    - destruct (Hdel ltac:(auto)) as [X _]. congruence.
    - destruct (Hdel ltac:(auto)) as [X _]. congruence. }
  destruct (match kind with GoStaticCall | GoDelegateCall => Some w1 | _ => _ end) as [w2|] eqn:Et; [|apply Hk; exact P1].
  assert (P2 : P w2).
  { assert (V : w1 = w \/ exists c, is_create kind = true /\ collision f w c = false /\ w1 = bump f w (cp_sender p) c).
    { unfold w1. destruct (is_create kind) eqn:Ek; [right|left; reflexivity]. cbn [andb] in Ecol. exists created. auto. }
    assert (B : is_create kind = false -> recipient = cp_recipient p) by (intros Ek; unfold recipient; rewrite Ek; reflexivity).
    destruct kind; try (injection Et as <-; exact P1); exact (Htr ltac:(discriminate) _ _ _ P1 V B Et). }
  assert (Hsc : cp_sender p <> DriverAddress \/ cp_recipient p <> StateContractAddress).
  { destruct kind; try (left; apply Hsend; discriminate). right. apply Hdel. auto. }
  pose proof (no_state_contract w2 (cp_sender p) (cp_recipient p) (cp_input p) (cp_gas p) Hsc) as Hst.
  destruct (handleStateContract f w2 _ _ _ _) as [[res w3]|]; [subst w3; apply Hk; exact P2|].
  destruct (handlePrecompiledContract f _ _ _ _) as [res|]; [apply Hk; exact P2|].
  match goal with |- every _ _ _ (if ?b then _ else _) => destruct b end; [apply Hk; exact P2|].
  destruct (_ <? _); [apply Hk; exact P1|].
  apply ev_enter.
  - split; [exact P2|]. split; [exact C1|]. cbn [run_message message_of msg_recipient p_recipient]. unfold recipient.
    destruct (is_create kind); [|exact Hst]. destruct (Ac eq_refl) as [(_ & ->)|(_ & x & h & ->)]; [apply (sd_create_1 _ _ HS)|apply (sd_create_2 _ _ HS)].
  - intros cr x Hx _. destruct (go_result_of cr) as [g|e]; [|apply Hk; exact P1]. destruct (negb _); [apply Hk; exact P1|].
    destruct (is_create kind) eqn:Ek; [|apply Hk; exact Hx].
    unfold deployed.
    do 3 match goal with |- every _ _ _ (let '(_, _) := (if ?b then (no_result, _) else _) in _) => destruct b; [apply Hk; exact Hx|] end.
    apply Hk. apply (sd_deploy _ _ HS); [apply Cc; reflexivity|exact Hx].
Qed.
Lemma eval_steady fb n : forall x rv code m, E_calm x rv code m -> P (fst (snd (eval H K (handler f fb) n x rv code m))).
Proof.
  induction n as [|n IH]; intros x rv code m [Hx [C1 C2]]; cbn [eval]; [exact Hx|]. unfold evaluate.
  destruct (inert (msg_recipient m)) eqn:Ei; [rewrite (C1 eq_refl), empty_code_world; exact Hx|].
  apply (result_world inP). apply run_keeps; [apply access_steady|intros _; apply keeps_steady; exact Ei| |exact Hx].
  intros [w r] m' Hw Hs. cbn [fst] in Hw. apply (play_every E_calm inP inP); [intros; split; [apply IH; assumption|apply eval_context]|].
  unfold handler. destruct (_ =? _); [|apply ev_done; exact Hw].
  destruct Hs as [_ Hs].
  assert (Nd : msg_recipient m <> DriverAddress) by (intros E; rewrite E, (sd_driver _ _ HS) in Ei; discriminate Ei).
  apply Call_steady; cbn [call_params_of cp_sender cp_recipient].
  - unfold go_kind_of. intros Hk. destruct (msg_kind m'); destruct Hs as (-> & _); try exact Nd. contradiction.
  - unfold go_kind_of. destruct (msg_kind m'); try (destruct (Z.odd (msg_flags m'))); intros [E|E]; try discriminate E; destruct Hs as (_ & -> & _); auto.
  - unfold go_kind_of. destruct (msg_kind m'); try (destruct (Z.odd (msg_flags m'))); cbn [is_create]; intros E; try discriminate E; apply Hs.
  - intros _. exact Hw.
  - intros Hk nn c _ Hc Hcol. assert (Hc' : c = fl_create f (msg_sender m') nn \/ exists x h, c = fl_create2 f (msg_sender m') x h) by (destruct Hc as [(_ & ->)|(_ & x' & h' & ->)]; eauto).
    apply (sd_create _ _ HS) with (n := nn); try assumption.
    assert (X : msg_sender m' = msg_recipient m) by (unfold go_kind_of in Hk; destruct (msg_kind m'); try (destruct (Z.odd (msg_flags m'))); try discriminate Hk; apply Hs).
    rewrite X. exact Ei.
  - intros Hk w1 b w2 P1 _ _ Et. refine (sd_transfer _ _ HS _ _ _ _ _ _ P1 Et).
    unfold go_kind_of in Hk. destruct (msg_kind m'); destruct Hs as (-> & _); try exact Ei. contradiction.
  - intros _. apply ev_done. exact Hw.
  - intros res w' Hw'. apply ev_done. exact Hw'.
Qed.
End Steady.

(** ** Static calls *)
(** [P] survives accesses, and the driver account has no code *)
Section Still.
Variable P : W -> Prop.
Hypothesis HS : still f P.
Notation inP := (fun x : WW => P (fst x)).
Definition E_still : WW -> revision -> list Z -> message -> Prop :=
  fun x _ code m => P (fst x) /\ (Z.odd (msg_flags m) = true /\ r_static (snd x) = true) /\ (msg_recipient m = DriverAddress -> code = []) /\ msg_recipient m <> StateContractAddress.
Lemma access_still : survives_access H inP.
Proof.
  split; cbn [lift_host go_host h_access_account h_access_storage].
  - intros [w r] b Hw. cbn [fst snd] in *. pose proof (sl_account _ _ HS w b Hw) as X. destruct (rc_access_account rc w b). exact X.
  - intros [w r] b k Hw. cbn [fst snd] in *. pose proof (sl_slot _ _ HS w b k Hw) as X. destruct (rc_access_storage rc w b k). exact X.
Qed.
(** a call that is static: requested as such, or made in static mode without creating anything or transferring value *)
Lemma Call_still r w kind p k D : kind = GoStaticCall \/ r_static r = true ->
  (kind <> GoDelegateCall -> cp_sender p <> DriverAddress) ->
  (kind = GoDelegateCall \/ kind = GoCallCode -> cp_recipient p <> DriverAddress /\ cp_recipient p <> StateContractAddress) ->
  is_create kind = false -> (kind = GoCall -> cp_value p = 0) -> (kind = GoCallCode -> cp_sender p = cp_recipient p) -> P w ->
  (forall res w, P w -> every E_still inP D (k res w)) -> every E_still inP D (Call f r w kind p k).
Proof.
  intros Hst Hsend Hdel Hcr Hval Hself Hw Hk. unfold Call. destruct (MaxRecursiveDepth <? r_depth r); [apply Hk; exact Hw|].
  destruct (call_code f w kind p) as [code hash] eqn:Ecode. rewrite Hcr. cbn [andb].
  assert (Et : exists w2, match kind with GoStaticCall | GoDelegateCall => Some w | _ => transferValue f w (cp_value p) (cp_sender p) (cp_recipient p) end = w2 /\ (w2 = None \/ w2 = Some w)).
  { eexists. split; [reflexivity|]. destruct kind; try discriminate Hcr; try (right; reflexivity).
    - unfold transferValue. rewrite (Hval eq_refl). right. reflexivity.
    - unfold transferValue. rewrite (Hself eq_refl), Z.eqb_refl. destruct (_ =? 0); [right; reflexivity|]. destruct (_ <? _); [left|right]; reflexivity. }
  destruct Et as (w2 & -> & [-> | ->]); [apply Hk; exact Hw|].
  assert (Hsc : cp_sender p <> DriverAddress \/ cp_recipient p <> StateContractAddress).
  { destruct kind; try (left; apply Hsend; discriminate). right. apply Hdel. auto. }
  pose proof (no_state_contract w (cp_sender p) (cp_recipient p) (cp_input p) (cp_gas p) Hsc) as Hs.
  destruct (handleStateContract f w _ _ _ _) as [[res w3]|]; [subst w3; apply Hk; exact Hw|].
  destruct (handlePrecompiledContract f _ _ _ _) as [res|]; [apply Hk; exact Hw|].
  match goal with |- every _ _ _ (if ?b then _ else _) => destruct b end; [apply Hk; exact Hw|].
  destruct (_ <? _); [apply Hk; exact Hw|].
  apply ev_enter.
  - split; [exact Hw|]. split; [|split].
    + cbn [run_message message_of msg_flags p_static deeper r_static snd]. destruct Hst as [-> | Hst]; [split; reflexivity|]. rewrite Hst. destruct kind; split; reflexivity.
    + cbn [run_message message_of msg_recipient p_recipient]. intros E.
      unfold call_code in Ecode. rewrite Hcr in Ecode. cbn [andb] in Ecode. injection Ecode as <- _.
      destruct kind; try discriminate Hcr; cbn [code_source].
      * rewrite E. apply (sl_driver _ _ HS). exact Hw.
      * rewrite E. apply (sl_driver _ _ HS). exact Hw.
      * destruct (Hdel ltac:(auto)) as [X _]. congruence.
      * destruct (Hdel ltac:(auto)) as [X _]. congruence.
    + exact Hs.
  - intros cr x Hx _. destruct (go_result_of cr) as [g|e]; [|apply Hk; exact Hw]. destruct (negb _); apply Hk; assumption.
Qed.
Lemma eval_still fb n : forall x rv code m, E_still x rv code m -> P (fst (snd (eval H K (handler f fb) n x rv code m))).
Proof.
  induction n as [|n IH]; intros x rv code m (Hx & (Hm & Hr) & C1 & C2); cbn [eval]; [exact Hx|]. unfold evaluate.
  destruct (Z.eq_dec (msg_recipient m) DriverAddress) as [Ed|Nd]; [rewrite (C1 Ed), empty_code_world; exact Hx|].
  set (Q := fun y : WW => P (fst y) /\ snd y = snd x).
  assert (HQ : survives_access H Q).
  { destruct access_still as [A1 A2]. destruct (access_context (snd x)) as [B1 B2]. split; intros; unfold Q in *; split; try (apply A1; tauto); try (apply A2; tauto); try (apply B1; tauto); apply B2; tauto. }
  assert (X : Q (snd (result_of (run_for H (fun w m => play (eval H K (handler f fb) n) (handler f fb w m)) K m rv code (is_dest code) (S (Z.to_nat (msg_gas m))) (initial m x))))); [|apply X].
  apply (result_world Q). apply run_keeps; [exact HQ|congruence| |split; [exact Hx|reflexivity]].
  intros [w r] m' [Hw Hwr] Hs. cbn [fst snd] in Hw, Hwr. split.
  2: { cbn [snd]. rewrite <- Hwr. apply (play_every (deep (r_static r)) (fun _ => True) (fun x' => snd x' = r)); [|apply (handler_deep fb (w, r))].
       intros. split; [exact Logic.I|apply eval_context]. }
  apply (play_every E_still inP inP); [intros; split; [apply IH; assumption|apply eval_context]|].
  unfold handler. destruct (_ =? _); [|apply ev_done; exact Hw]. destruct Hs as [_ Hs]. rewrite <- Hwr in Hr.
  assert (Ho : Z.odd (msg_flags m') = true -> True) by auto.
  apply Call_still; cbn [call_params_of cp_sender cp_recipient cp_value].
  - right. exact Hr.
  - unfold go_kind_of. intros Hk. destruct (msg_kind m'); destruct Hs as (-> & _); try exact Nd. contradiction.
  - unfold go_kind_of. destruct (msg_kind m'); try (destruct (Z.odd (msg_flags m'))); intros [E|E]; try discriminate E; destruct Hs as (_ & -> & _); auto.
  - unfold go_kind_of. destruct (msg_kind m'); try (destruct (Z.odd (msg_flags m'))); try reflexivity; destruct Hs as (_ & _ & _ & Hs); congruence.
  - unfold go_kind_of. destruct (msg_kind m'); try (destruct (Z.odd (msg_flags m'))); intros E; try discriminate E; apply Hs; exact Hm.
  - unfold go_kind_of. destruct (msg_kind m'); try (destruct (Z.odd (msg_flags m'))); intros E; try discriminate E; destruct Hs as (-> & -> & _); reflexivity.
  - exact Hw.
  - intros res w' Hw'. apply ev_done. exact Hw'.
Qed.
End Still.
End Inv.
