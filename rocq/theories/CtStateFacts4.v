(** When the generator of states fails. *)
From Verif Require Import Base Host GoStorage SpecEvm SpecRules ArithFacts MemFacts JumpFacts CtSolve SpecSolve CtSolveFacts CtGen SpecGen CtStackFacts CtStorageFacts CtTransientFacts
  CtCodeGen SpecCode CtCodeGenFacts CtCodeGenFacts2 CtContext SpecContext CtContextFacts CtBlockFacts CtAccounts SpecAccounts CtAccountsFacts CtAccountsFacts2 CtState SpecState CtStateFacts CtStateFacts2 CtStateFacts3.
From Coq Require Import ZArith List Bool Lia Permutation Znumtheory.
Import ListNotations.
Open Scope Z_scope.

Definition plainb (q : state_request) : bool :=
  match q with CodeHas _ | StackHas _ | StorageHas _ | TransientHas _ | AccountsHave _ | BlockHas _ | BlobsHave _ => false | _ => true end.
Lemma plain_cases qs : (exists q, In q qs /\ ~ plain q) \/ forall q, In q qs -> plain q.
Proof.
  destruct (forallb plainb qs) eqn:e.
  - right. rewrite forallb_forall in e. intros q hq. specialize (e q hq). destruct q; cbn in *; try exact Logic.I; discriminate.
  - left. induction qs as [|q qs ih]; [discriminate|]. cbn in e. destruct (plainb q) eqn:eq; [destruct (ih e) as (r & h1 & h2); exists r; split; [right; exact h1|exact h2]|].
    exists q. split; [left; reflexivity|]. destruct q; try discriminate; exact (fun h => h).
Qed.
Lemma plain_part {A} (f : state_request -> option A) qs : (forall q y, f q = Some y -> ~ plain q) -> (forall q, In q qs -> plain q) -> part f qs = [].
Proof.
  intros h1 h2. induction qs as [|q qs ih]; cbn; [reflexivity|]. destruct (f q) eqn:e; [destruct (h1 _ _ e); apply h2; left; reflexivity|]. apply ih. intros r hr. apply h2. right. exact hr.
Qed.

Section Errors.
Variables (d : draws) (fuel : nat) (a : Assignment) (qs : list state_request).
Hypothesis hd : proper_draws d qs.
Hypothesis hfresh : fresh_addresses d a qs.
Hypothesis ha : words a.
Hypothesis hok : Forall state_request_ok qs.
Hypothesis hpo : Forall position_ok (codes qs).
Hypothesis hlen : zlen qs < 2 ^ 49.
Hypothesis hvk : values_not_keys (fun _ => None) (storages qs).
Notation g := (state_generator qs).

Definition impossible : Prop := forall s b, state_valid s -> extends a b -> ~ Forall (state_fulfils b s) qs.
Definition unbound : Prop := exists x, (In (PcVar x) qs \/ exists p, In (StackHas (HoldsVar p x)) qs) /\ a x = None /\ forall v, ~ In (Bind x v) qs.
Definition explained {A} (m : outcome A) : Prop :=
  match m with
  | Generated _ | Running => True
  | ErrUnsatisfiable => (exists q, In q qs /\ ~ plain q) \/ impossible
  | ErrUnboundVariable => unbound
  | Panics => False
  end.
Lemma explained_bind {A B} (m : outcome A) (k : A -> outcome B) : explained m -> (forall x, m = Generated x -> explained (k x)) -> explained (gbind m k).
Proof. destruct m; cbn; auto. Qed.
Lemma part_len {A} (f : state_request -> option A) : zlen (part f qs) <= zlen qs.
Proof. clear. induction qs as [|q l ih]; cbn [part]; [unfold zlen; cbn; lia|]. unfold zlen in *. destruct (f q); cbn [length]; lia. Qed.
Lemma holds_all s b q : Forall (state_fulfils b s) qs -> In q qs -> state_fulfils b s q.
Proof. intros h. rewrite Forall_forall in h. apply h. Qed.

Lemma code_dom a0 code a1 : words a0 -> CodeGenerate (d_code d) (d_fill d) (d_size d) a0 (code_generator (codes qs)) = Generated (code, a1) -> forall x, a1 x = None -> a0 x = None.
Proof.
  intros hw e x hx. pose proof (code_generate_sound _ _ _ _ _ _ _ (codes_ok qs hok) (fun x v k => proj1 (hw x v k)) e) as (_ & _ & c3 & c4). rewrite Forall_forall in c3.
  destruct (a0 x) as [v|] eqn:ex; [|reflexivity]. destruct (c4 x v ex) as [h|[h|h]]; [congruence| |]; apply c3 in h; cbn in h; [destruct h as (? & ? & h & _)|destruct h as (? & h & _)]; congruence.
Qed.

Lemma first_explained : explained (generate_first d a g).
Proof.
  destruct hd as (dg & dr & _ & _ & _ & _ & _ & _ & _ & dsize & _).
  destruct (gen_parts qs NewStateGenerator) as (pcode & _ & _ & _ & _ & _ & _ & pgas & prefund). fold (state_generator qs) in pcode, pgas, prefund.
  unfold generate_first. apply explained_bind.
  { pose proof (enforce_err (gn_bindings g) a) as h. destruct (enforce _ _); cbn; try exact h; try contradiction; try exact Logic.I. right. intros s b _ hx hf. apply (h b hx). intros x v hv. apply gen_bindings in hv. apply (holds_all s b _ hf hv). }
  intros a0 e0. apply enforce_spec in e0. destruct e0 as (b1 & b2 & b3).
  assert (hext0 : forall s b, extends a b -> Forall (state_fulfils b s) qs -> extends a0 b).
  { intros s b hx hf x v hv. apply b3 in hv. destruct hv as [hv|hv]; [apply hx; exact hv|]. apply gen_bindings in hv. apply (holds_all s b _ hf hv). }
  assert (hw0 : words a0).
  { intros x v hv. apply b3 in hv. destruct hv as [hv|hv]; [apply (ha x v hv)|]. apply gen_bindings in hv. rewrite Forall_forall in hok. apply (hok _ hv). }
  apply explained_bind.
  { pose proof (status_err (d_status d) (gn_status g) (nodup_status qs)) as h. destruct (pick_status _ _); cbn; try exact h; try contradiction; try exact Logic.I. right. intros s b hv _ hf. apply (h (s_status s)); [apply hv|]. intros t ht. apply gen_status in ht. apply (holds_all s b _ hf ht). }
  intros st _. rewrite pcode. change (fold_left code_request_call (codes qs) (gn_code NewStateGenerator)) with (code_generator (codes qs)).
  assert (hcl : zlen (codes qs) < 2 ^ 49) by (assert (zlen (codes qs) <= zlen qs) by apply part_len; lia).
  assert (hplain : (forall q, In q qs -> plain q) -> exists code, CodeGenerate (d_code d) (d_fill d) (d_size d) a0 (code_generator (codes qs)) = Generated (code, a0)).
  { intros hp. assert (codes qs = []) as -> by (apply plain_part; [intros [] y e; try discriminate e; exact (fun h => h)|exact hp]).
    apply (code_generate_satisfiable a0 [] [] []); [reflexivity|constructor|constructor|unfold zlen; cbn; lia|unfold zlen; cbn; lia|exact dsize|intros p []]. }
  apply explained_bind.
  { pose proof (code_generate_fine (d_code d) (d_fill d) (d_size d) a0 (codes qs) hpo hcl (fun x v k => proj1 (hw0 x v k)) dsize) as h.
    destruct (plain_cases qs) as [k|k]; [|destruct (hplain k) as (c & ->); exact Logic.I]. destruct (CodeGenerate _ _ _ _ _); try exact h; try contradiction. left. exact k. }
  intros [code a1] ec. pose proof (code_dom _ _ _ hw0 ec) as hdom.
  assert (heq : (exists q, In q qs /\ ~ plain q) \/ a1 = a0) by (destruct (plain_cases qs) as [k|k]; [left; exact k|right; destruct (hplain k) as (c & ec'); congruence]).
  apply explained_bind.
  { pose proof (readOnly_err (d_readOnly d) (gn_readOnly g) (nodup_readOnly qs)) as h. destruct (pick_readOnly _ _); cbn; try exact h; try contradiction; try exact Logic.I. right. intros s b hv _ hf. apply (h (s_readOnly s)). intros t ht. apply gen_readOnly in ht. apply (holds_all s b _ hf ht). }
  intros ro _. apply explained_bind.
  { pose proof (pc_values_err (gn_pcVar g) a1 (gn_pc g)) as h. destruct (pc_values _ _ _); cbn; try exact h; try contradiction. destruct h as (x & h1 & h2). apply gen_pcVar in h1.
    exists x. split; [left; exact h1|]. apply hdom in h2. split; [destruct (a x) as [v|] eqn:e; [apply b1 in e; congruence|reflexivity]|]. intros v hv. apply gen_bindings in hv. apply b2 in hv. congruence. }
  intros vs evs. apply explained_bind.
  { pose proof (pc_err (d_pc d) code vs (pc_values_nodup _ _ _ _ (nodup_pc qs) evs)) as h. destruct (pick_pc _ _ _); cbn; try exact h; try contradiction; try exact Logic.I. destruct heq as [heq| ->]; [left; exact heq|right].
    intros s b hv hx hf. apply (h (s_pc s)). intros t ht. destruct (pc_values_spec _ _ _ _ evs) as (_ & _ & h3). apply h3 in ht. destruct ht as [ht|(x & v & h4 & h5 & ->)].
    - apply gen_pc in ht. apply (holds_all s b _ hf ht).
    - apply gen_pcVar in h4. pose proof (holds_all s b _ hf h4) as (w & hw & ->). f_equal. apply (hext0 s b hx hf) in h5. congruence. }
  intros pc _. rewrite pgas, prefund. change (fold_left range_add (gases qs) (gn_gas NewStateGenerator)) with (range_solver 0 500000000000 (gases qs)).
  change (fold_left range_add (refunds qs) (gn_refund NewStateGenerator)) with (range_solver (- 500000000000) 500000000000 (refunds qs)).
  apply explained_bind.
  { pose proof (gas_err (d_gas d) 500000000000 (gases qs) ltac:(lia) dg (gases_ok qs hok) 0 ltac:(lia)) as h. destruct (solved _); cbn; try exact h; try contradiction; try exact Logic.I. right. intros s b hv _ hf.
    apply (h (s_gas s)); [apply hv|]. apply Forall_forall. intros c hc. apply part_in in hc. destruct hc as (q & h1 & h2). destruct q; try discriminate. injection h2 as ->. apply (holds_all s b _ hf h1). }
  intros gas _. apply explained_bind.
  { pose proof (gas_err (d_refund d) 500000000000 (refunds qs) ltac:(lia) dr (refunds_ok qs hok) (- 500000000000) ltac:(lia)) as h. destruct (solved _); cbn; try exact h; try contradiction; try exact Logic.I. right. intros s b hv _ hf.
    apply (h (s_refund s)); [apply hv|]. apply Forall_forall. intros c hc. apply part_in in hc. destruct hc as (q & h1 & h2). destruct q; try discriminate. injection h2 as ->. apply (holds_all s b _ hf h1). }
  intros refund _. apply explained_bind; [|intros self _; exact Logic.I].
  pose proof (self_err (d_self d) (gn_self g) (gn_selfVar g) a1 (nodup_self qs)) as h. destruct (pick_self _ _ _ _); cbn; try exact h; try contradiction; try exact Logic.I. destruct heq as [heq| ->]; [left; exact heq|right].
  intros s b hv hx hf. apply (h (s_self s)).
  - intros B hB. apply gen_self in hB. apply (holds_all s b _ hf hB).
  - intros x v hin e. apply gen_selfVar in hin. pose proof (holds_all s b _ hf hin) as k. cbn in k. apply (hext0 s b hx hf) in e. assert (v = s_self s) as -> by congruence. rewrite Z.mod_small; [reflexivity|apply hv].
Qed.

Lemma rest_explained self a1 : words a1 -> holds (freshP d) a1 -> (forall x, a1 x = None -> a x = None /\ forall v, ~ In (Bind x v) qs) -> explained (generate_rest d fuel self a1 g).
Proof.
  intros hw1 hf1 hdom. destruct hd as (_ & _ & dstack & dblock & dtime & dtx & dranges & dsto & dtra & _ & dsized & dpool & do1 & do2 & do3 & do4 & do5 & do6 & do7).
  destruct (gen_parts qs NewStateGenerator) as (_ & pstack & psto & ptra & pacc & pblock & ptx & _ & _). fold (state_generator qs) in pstack, psto, ptra, pacc, pblock, ptx.
  assert (z0 : is_word 0) by (unfold is_word; lia). assert (zf : freshP d 0) by (intros i; apply hfresh; left; lia).
  unfold generate_rest. apply explained_bind.
  { pose proof (destructed_err (d_destructed d) (gn_destructed g)) as h. destruct (pick_destructed _ _); cbn; try exact h; try contradiction; try exact Logic.I. right. intros s b _ _ hf. destruct h as [h1 h2].
    destruct (gen_destructed qs NewStateGenerator) as [k1 k2]. fold (state_generator qs) in k1, k2. apply k1 in h1. apply k2 in h2. destruct h1 as [h1|h1]; [discriminate|]. destruct h2 as [h2|h2]; [discriminate|].
    pose proof (holds_all s b _ hf h1) as j1. pose proof (holds_all s b _ hf h2) as j2. cbn in j1, j2. congruence. }
  intros des _. rewrite psto. change (fold_left storage_request_call (storages qs) (gn_storage NewStateGenerator)) with (storage_generator (storages qs)). apply explained_bind.
  { assert (hv1 : values_not_keys a1 (storages qs)) by (intros s x y q h1 _ h2; exact (hvk s x y q h1 eq_refl h2)).
    pose proof (storage_generate_error (d_storage d) fuel a1 (storages qs) hv1) as h. destruct (StorageGenerate _ _ _ _); cbn; try exact h; try contradiction; try exact Logic.I. left. destruct (plain_cases qs) as [k|k]; [exact k|exfalso].
    assert (e : storages qs = []) by (apply plain_part; [intros [] y e; try discriminate e; exact (fun h => h)|exact k]). rewrite e in h.
    destruct h as [(? & ? & ? & ? & ? & [] & _)|[(? & [] & _)|(? & (? & ? & []) & _)]]. }
  intros [sto a2] eso. assert (hw2 : words a2) by (apply (storage_P is_word (d_storage d) dsto z0 fuel a1 _ _ _ hw1 eso)).
  assert (hf2 : holds (freshP d) a2) by (apply (storage_P (freshP d) (d_storage d)) with (2 := zf) (4 := eso); [intros j i; apply hfresh; do 5 right; left; eauto|exact hf1]).
  pose proof (storage_extends _ _ _ _ _ _ eso) as x1.
  rewrite ptra. change (fold_left transient_request_call (SpecState.transients qs) (gn_transient NewStateGenerator)) with (transient_generator (SpecState.transients qs)). apply explained_bind.
  { pose proof (transient_error (d_transient d) a2 (SpecState.transients qs) (d_transient_order d) do1 fuel) as h. destruct (TransientGenerate _ _ _ _ _); cbn; try exact h; try contradiction; try exact Logic.I. left. destruct (plain_cases qs) as [k|k]; [exact k|exfalso].
    assert (e : SpecState.transients qs = []) by (apply plain_part; [intros [] y e; try discriminate e; exact (fun h => h)|exact k]). rewrite e in h.
    destruct h as [h|(x & y & _ & _ & [([] & _)|([] & _)])]. apply (h a2 (fun _ => None)); [intros x v hv; exact hv|constructor]. }
  intros [tra a3] etr. assert (hw3 : words a3) by (apply (transient_P is_word (d_transient d) (fun i => proj1 (dtra i)) fuel _ _ _ _ _ hw2 etr)).
  assert (hf3 : holds (freshP d) a3) by (apply (transient_P (freshP d) (d_transient d)) with (3 := etr); [intros j i; apply hfresh; do 6 right; eauto|exact hf2]).
  assert (hap : apart (d_accounts d) a3) by (intros i x A (v & hv & ->); apply (hf3 x v hv)).
  destruct (transient_sound (d_transient d) a2 (SpecState.transients qs) (d_transient_order d) do1 fuel tra a3 etr) as [x2 _].
  rewrite pacc. change (fold_left account_call (accounts qs) (gn_accounts NewStateGenerator)) with (accounts_generator (accounts qs)). apply explained_bind.
  { pose proof (accounts_errors (d_accounts d) fuel a3 self (accounts qs) hap dsized (accounts_ok qs hok)) as h. destruct (AccountsGenerate _ _ _ _ _); cbn; try exact h; try contradiction. left. destruct (plain_cases qs) as [k|k]; [exact k|exfalso].
    assert (e : accounts qs = []) by (apply plain_part; [intros [] y e; try discriminate e; exact (fun h => h)|exact k]). rewrite e in h. apply h. exists a3, NewAccountsBuilder. split; [intros x v hv; exact hv|constructor]. }
  intros [acc a4] eac. assert (hw4 : words a4).
  { apply (accounts_P is_word (d_accounts d)) with (3 := eac); [|exact hw3]. intros i. unfold is_word, NewAddress. pose proof (Z.mod_pos_bound (ch_address (d_accounts d) i) (2 ^ 160) ltac:(lia)). lia. }
  destruct (accounts_sound (d_accounts d) fuel a3 self (accounts qs) acc a4 hap dsized (accounts_ok qs hok) eac) as (x3 & _ & _).
  rewrite ptx. change (fold_left blob_call (blobs qs) (gn_tx NewStateGenerator)) with (tx_generator (blobs qs)). apply explained_bind.
  { pose proof (tx_words (d_tx d) (d_tx_order d) (d_tx_order' d) a4 (tx_generator (blobs qs)) dtx hw4) as h. destruct (TxGenerate _ _ _ _ _) eqn:et; cbn; try exact h; try contradiction; try exact Logic.I. left. destruct (plain_cases qs) as [k|k]; [exact k|exfalso].
    assert (e : blobs qs = []) by (apply plain_part; [intros [] y e; try discriminate e; exact (fun h => h)|exact k]).
    destruct (tx_generates (d_tx d) a4 (blobs qs) (d_tx_order d) (d_tx_order' d) dtx hw4 do2 do3) as (c & b & e' & _); [rewrite e; exists 0, a4; split; [lia|split; [intros x v hv; exact hv|constructor]]|]. congruence. }
  intros [blo a5] ebs. pose proof (tx_words (d_tx d) (d_tx_order d) (d_tx_order' d) a4 (tx_generator (blobs qs)) dtx hw4) as hw5. rewrite ebs in hw5.
  destruct (tx_sound _ _ _ _ _ _ _ dtx hw4 do2 do3 ebs) as (_ & x4 & _).
  rewrite pblock. change (fold_left block_call (blocks qs) (gn_block NewStateGenerator)) with (block_generator (blocks qs)).
  pose proof (block_spec (d_ranges d) dranges (d_time d) dtime a5 hw5 (blocks qs) (blocks_ok qs hok) _ _ _ _ do4 do5 do6 do7 (d_block d) dblock) as hb.
  apply explained_bind.
  { destruct (BlockGenerate _ _ _ _ _ _ _ _ _) as [| | | |] eqn:et; cbn; try contradiction; try exact Logic.I. left. destruct (plain_cases qs) as [k|k]; [exact k|exfalso].
    assert (e : blocks qs = []) by (apply plain_part; [intros [] y e; try discriminate e; exact (fun h => h)|exact k]). rewrite e in hb.
    destruct hb as [hb|[(? & [] & _)|(? & ? & [] & _)]]. apply (hb 0). split; [lia|]. exists a5. split; [intros x v hv; exact hv|constructor]. }
  intros [[bl ti] b] ebk. rewrite ebk in hb. destruct hb as (_ & x5 & _ & _).
  rewrite pstack. change (fold_left stack_request_call (stacks qs) (gn_stack NewStateGenerator)) with (stack_generator (stacks qs)). apply explained_bind; [|intros; exact Logic.I].
  pose proof (stack_generate_sound (stacks qs) b (d_pool d) (stacks_ok qs hok) dpool (d_stack d) (d_stack_fill d) dstack) as hs.
  destruct (StackGenerate _ _ _ _ _) as [| | | |]; cbn; try contradiction; try exact Logic.I.
  - left. destruct (plain_cases qs) as [k|k]; [exact k|exfalso].
    assert (e : stacks qs = []) by (apply plain_part; [intros [] y e; try discriminate e; exact (fun h => h)|exact k]). rewrite e in hs.
    destruct (hs []) as (? & ? & [] & _). split; [unfold zlen; cbn; lia|constructor].
  - destruct hs as (p & x & h1 & h2). exists x. apply part_in in h1. destruct h1 as (q & h1 & e). destruct q; try discriminate. injection e as ->. split; [right; exists p; exact h1|]. apply hdom.
    destruct (a1 x) as [v|] eqn:ex; [|reflexivity]. apply x1, x2, x3, x4, x5 in ex. congruence.
Qed.

Theorem state_errors : explained (StateGenerate d fuel a g).
Proof.
  unfold StateGenerate. apply explained_bind; [exact first_explained|]. intros [[[[[[[st cd] ro] pc] ga] re] se] a1] e1.
  apply (first_sound d a qs hd hfresh ha hok) in e1. destruct e1 as (k1 & k2 & k3 & _ & _ & _ & _ & _ & _ & _ & k11).
  apply explained_bind; [|intros [[[[[[[[? ?] ?] ?] ?] ?] ?] ?] ?] _; exact Logic.I]. apply rest_explained; [exact k2|exact k3|].
  assert (H : forall x, In (CodeHas (CodeVar x)) qs \/ In (CodeHas (DataVar x)) qs \/ In (SelfVar x) qs -> a1 x <> None).
  { intros x [h|[h|h]]; apply k11 in h; [destruct h as (? & ? & h & _)|destruct h as (? & h & _)|]; congruence. }
  intros x hx. split.
  - destruct (a x) as [v|] eqn:ex; [|reflexivity]. destruct (k1 x v ex) as [h|[h|[h|[h _]]]]; [congruence|destruct (H x); auto..].
  - intros v hv. destruct (k11 _ hv) as [h|[h|[h|[h _]]]]; [congruence|destruct (H x); auto..].
Qed.
End Errors.
