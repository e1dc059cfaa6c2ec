(** Calls and creations on any VM. *)
From Verif Require Import Base Host SpecEvm SpecVm Vm Client GoAdapter Floria SpecTx MemFacts ClientFacts SpecHost StaticFacts RunInv FloriaFacts FloriaInv TxFacts TxFacts2 TxFacts3 TxFacts4 TxFacts5.
From Coq Require Import Lia ZArith List Bool.
Import ListNotations.

Section TxFacts7.
Context {W : Type}.
Variable f : floria W.
Hypothesis Hf : floria_ok f.
Notation ctx := (fl_ctx f).
Notation rc := (x_rc (fl_ctx f)).
Notation WW := (W * rctx)%type.
Let Hc := fo_ctx f Hf.
Notation mach0 := (machine f fb0 tick0 bufs0).
Notation code := (rc_code rc).

Lemma call_framed (w1 : W) r kind p cd h : framed (w1, deeper r (call_static r kind)) (call_message f r kind p cd h).
Proof. split; cbn [snd deeper r_depth r_static call_message msg_depth msg_flags]; [lia|]. destruct (call_static r kind); reflexivity. Qed.
Theorem call_runs w r kind p w1 cr x fallback tick bufs : params_ok p -> 0 <= r_depth r <= 1024 -> is_create kind = false -> moved f w kind p = Some w1 ->
  cp_recipient p <> StateContractAddress -> fl_precompile f (fl_rev f (r_block r)) (cp_recipient p) = None ->
  (kind = GoCall -> x_account_exists ctx w1 (cp_recipient p) = true) ->
  reference (machine f fallback tick bufs) (w1, mkR (r_depth r + 1) (call_static r kind) (r_block r) (r_origin r) (r_price r)) (fl_rev f (r_block r)) (code w (source kind p))
    (call_message f r kind p (code w (source kind p)) (rc_code_hash rc w (source kind p))) = (cr, x) ->
  calls_to f w r kind p (call_answer cr 0) (match cr_status cr with EVMC_SUCCESS => fst x | _ => w end).
Proof.
  intros Hp Hd Hk Hm Hst Hpre Hex R. apply (call_contract f Hf w r kind p w1 cr x Hp Hd Hk Hm Hst Hpre Hex). rewrite <- R. apply reference_same. apply call_framed.
Qed.
Lemma creation_moved w1 kind p c : params_ok p -> is_create kind = true ->
  match kind with GoStaticCall | GoDelegateCall => Some w1 | _ => transferValue f w1 (cp_value p) (cp_sender p) c end = transferred f w1 (cp_value p) (cp_sender p) c.
Proof. intros Hp Hk. rewrite <- (transfer_eq f Hf) by apply (po_value _ Hp). destruct kind; try discriminate Hk; reflexivity. Qed.
Theorem create_unfunded w r kind p : params_ok p -> 0 <= r_depth r <= 1024 -> is_create kind = true -> cp_recipient p = 0 -> ~ taken f w (new_address f w kind p) ->
  transferred f (registered f w (cp_sender p) (new_address f w kind p)) (cp_value p) (cp_sender p) (new_address f w kind p) = None ->
  calls_to f w r kind p (Some no_result) (registered f w (cp_sender p) (new_address f w kind p)).
Proof.
  intros Hp Hd Hk Hr Hnt Hm. apply (ref_to f Hf); [exact Hp|lia|]. unfold ref_call, Call. destruct (Z.ltb_spec MaxRecursiveDepth (r_depth r)) as [X|_]; [unfold MaxRecursiveDepth in X; lia|].
  destruct (new_address_eq f w kind p Hk Hr) as [-> E]. rewrite Hk, E. set (c := new_address f w kind p) in *. cbn [andb].
  assert (Nc : collision f w c = false) by (destruct (collision f w c) eqn:X; [apply (taken_collision f) in X; contradiction|reflexivity]). rewrite Nc.
  change (bump f w (cp_sender p) c) with (registered f w (cp_sender p) c). rewrite (creation_moved _ kind p c Hp Hk), Hm. apply done_call.
Qed.
Theorem creation_runs w r kind p w1 cr x fallback tick bufs : params_ok p -> 0 <= r_depth r <= 1024 -> is_create kind = true -> cp_recipient p = 0 ->
  let new := new_address f w kind p in
  let w0 := registered f w (cp_sender p) new in
  fl_precompile f (fl_rev f (r_block r)) new = None -> ~ taken f w new -> zlen (cp_input p) <= 2 ^ 32 ->
  transferred f w0 (cp_value p) (cp_sender p) new = Some w1 ->
  reference (machine f fallback tick bufs) (w1, mkR (r_depth r + 1) (r_static r) (r_block r) (r_origin r) (r_price r)) (fl_rev f (r_block r)) (cp_input p) (init_message f r p new) = (cr, x) ->
  match cr_status cr with
  | EVMC_SUCCESS =>
    (undeployable (fl_rev f (r_block r)) (cr_output cr) (cr_gas_left cr) -> calls_to f w r kind p (Some no_result) (fst x)) /\
    (~ undeployable (fl_rev f (r_block r)) (cr_output cr) (cr_gas_left cr) ->
       calls_to f w r kind p (Some (mkCallResult (cr_output cr) (cr_gas_left cr - 200 * zlen (cr_output cr)) (cr_gas_refund cr) new true)) (x_set_code ctx (fst x) new (cr_output cr)))
  | _ => calls_to f w r kind p (call_answer cr new) w0
  end.
Proof.
  intros Hp Hd Hk Hr new w0 Hpre Hnt Hlen Hm R.
  assert (R0 : reference mach0 (w1, mkR (r_depth r + 1) (r_static r) (r_block r) (r_origin r) (r_price r)) (fl_rev f (r_block r)) (cp_input p) (init_message f r p new) = (cr, x)).
  { rewrite <- R. apply reference_same. split; cbn [snd r_depth r_static init_message msg_depth msg_flags]; [lia|]. destruct (r_static r); reflexivity. }
  clear R. set (res := ref_call f w r kind p).
  assert (E : res = match cr_status cr with
    | EVMC_SUCCESS => let '(a, w') := Floria.deployed f (fl_rev f (r_block r)) (mkGo true (cr_output cr) (cr_gas_left cr) (cr_gas_refund cr)) new (fst x) in (Some a, w')
    | _ => (call_answer cr new, w0) end).
  { unfold res, ref_call, Call. destruct (Z.ltb_spec MaxRecursiveDepth (r_depth r)) as [X|_]; [unfold MaxRecursiveDepth in X; lia|].
    destruct (new_address_eq f w kind p Hk Hr) as [-> E]. rewrite Hk, E. fold new. cbn [andb].
    assert (Nc : collision f w new = false) by (destruct (collision f w new) eqn:X; [apply (taken_collision f) in X; contradiction|reflexivity]). rewrite Nc.
    change (bump f w (cp_sender p) new) with w0. rewrite (creation_moved _ kind p new Hp Hk), Hm.
    assert (E1 : handleStateContract f w1 (cp_sender p) (cp_recipient p) (cp_input p) (cp_gas p) = None) by (unfold handleStateContract; rewrite Hr; reflexivity).
    rewrite E1. unfold handlePrecompiledContract. rewrite Hpre.
    assert (E2 : match kind with GoCall => negb (x_account_exists ctx w1 new) | _ => false end = false) by (destruct kind; try discriminate Hk; reflexivity). rewrite E2.
    destruct (Z.ltb_spec (2 ^ 32) (zlen (cp_input p))) as [|_]; [lia|]. cbn [play].
    assert (Ed : deeper r (match kind with GoStaticCall => true | _ => r_static r end) = mkR (r_depth r + 1) (r_static r) (r_block r) (r_origin r) (r_price r)) by (destruct kind; try discriminate Hk; reflexivity).
    rewrite Ed. assert (Em : run_message f (mkR (r_depth r + 1) (r_static r) (r_block r) (r_origin r) (r_price r)) kind p new (cp_input p) (fl_keccak f (cp_input p)) = init_message f r p new).
    { unfold run_message, init_message, message_of. cbn [p_static p_depth p_gas p_recipient p_sender p_input p_value p_code_hash r_depth r_static]. f_equal; lia. }
    rewrite Em, R0. unfold go_result_of, call_answer.
    destruct (cr_status cr); cbn [go_success negb go_output go_gas_left go_gas_refund]; try apply done_call.
    destruct (Floria.deployed f _ _ new (fst x)) as [a w']. apply done_call. }
  assert (T : forall a w', res = (a, w') -> calls_to f w r kind p a w') by (intros a w' Ea; apply (ref_to f Hf); [exact Hp|lia|exact Ea]).
  clearbody res. unfold Floria.deployed in E. cbn [go_output go_gas_left go_gas_refund] in E. change maxCodeSize with 24576 in E. change createGasCostPerByte with 200 in E.
  destruct (cr_status cr); try (apply T; exact E). set (out := cr_output cr) in *. unfold undeployable.
  assert (B : rev_ge (fl_rev f (r_block r)) London && (0 <? zlen out) && (data_at out 0 =? 0xEF) = true <-> rev_ge (fl_rev f (r_block r)) London = true /\ exists rest, out = 0xEF :: rest).
  { rewrite !andb_true_iff, Z.ltb_lt, Z.eqb_eq. destruct out as [|b rest].
    - change (zlen (@nil Z)) with 0. split; [lia|intros (_ & rest & X); discriminate X].
    - change (data_at (b :: rest) 0) with b. rewrite zlen_cons. pose proof (zlen_nonneg rest). split; [intros [[A _] ->]; eauto|intros (A & rest' & X); injection X as -> _; split; [split; [exact A|lia]|reflexivity]]. }
  destruct (Z.ltb_spec 24576 (zlen out)).
  { split; [intros _; apply T; exact E|intros N; elim N; auto]. }
  destruct (rev_ge _ _ && _ && _).
  { split; [intros _; apply T; exact E|intros N; elim N; right; left; apply B; reflexivity]. }
  destruct (Z.ltb_spec (cr_gas_left cr) (zlen out * 200)).
  { split; [intros _; apply T; exact E|intros N; elim N; right; right; lia]. }
  split; [intros [X|[X|X]]; [lia|apply B in X; discriminate X|lia]|intros _; apply T; rewrite (Z.mul_comm 200); exact E].
Qed.
End TxFacts7.
