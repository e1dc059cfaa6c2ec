(** Generated states fulfil the requests. *)
From Verif Require Import Base Host GoStorage SpecEvm SpecRules ArithFacts MemFacts JumpFacts CtSolve SpecSolve CtSolveFacts CtGen SpecGen CtStackFacts CtStorageFacts CtTransientFacts
  CtCodeGen SpecCode CtCodeGenFacts CtCodeGenFacts2 CtContext SpecContext CtContextFacts CtBlockFacts CtAccounts SpecAccounts CtAccountsFacts CtAccountsFacts2 CtState SpecState CtStateFacts CtStateFacts2.
From Coq Require Import ZArith List Bool Lia Permutation Znumtheory.
Import ListNotations.
Open Scope Z_scope.

(** *** The storage generator keeps bindings *)
Section Keep.
Variable rnd : nat -> Z.
Variable fuel : nat.
Lemma keep_put (a : Assignment) x v : a x = None -> extends a (put a x v).
Proof. intros h y w hy. unfold put. destruct (Z.eqb_spec y x); [subst; congruence|exact hy]. Qed.
Lemma unused_asg g v g' : getUnusedKey rnd fuel g = Generated (v, g') -> asg g' = asg g.
Proof. intros e. apply (unused_P (fun _ => True) rnd (fun _ => Logic.I)) in e. tauto. Qed.
Lemma retry_asg n ex g v g' : retry rnd n ex g = Generated (v, g') -> asg g' = asg g.
Proof. intros e. apply (retry_P (fun _ => True) rnd (fun _ => Logic.I)) in e. tauto. Qed.
Lemma key_keeps x g v g' : getKey rnd fuel x g = Generated (v, g') -> extends (asg g) (asg g').
Proof.
  intros e. unfold getKey in e. destruct (asg g x) eqn:ex; [injection e as <- <-; intros y w k; exact k|]. apply bind_gen in e. destruct e as ([k g1] & e1 & e2). injection e2 as <- <-.
  apply unused_asg in e1. cbn [asg]. rewrite e1. apply keep_put. exact ex.
Qed.
Lemma new_keeps con g v g' : pick_new rnd fuel con g = Generated (v, g') -> extends (asg g) (asg g').
Proof.
  intros e. unfold pick_new in e. destruct (asg g (c_new con)) eqn:ex; [destruct (_ || _); [discriminate|injection e as <- <-; intros y w k; exact k]|].
  apply bind_gen in e. destruct e as ([k g1] & e1 & e2). injection e2 as <- <-. cbn [asg]. assert (asg g1 = asg g) as ->; [|apply keep_put; exact ex].
  destruct (NewValueMustBeZero _); [injection e1 as <- <-; reflexivity|]. destruct (NewValueMustNotBeZero _); [apply retry_asg in e1; exact e1|].
  cbn [draw] in e1. destruct (_ =? 0); injection e1 as <- <-; reflexivity.
Qed.
Lemma configs_keep : forall l s g s' g', configs rnd fuel l s g = Generated (s', g') -> extends (asg g) (asg g').
Proof.
  induction l as [|con l ih]; intros s g s' g' e; cbn [configs] in e; [injection e as <- <-; intros y w k; exact k|].
  apply bind_gen in e. destruct e as ([k g1] & e1 & e). apply bind_gen in e. destruct e as ([v g2] & e2 & e). apply bind_gen in e. destruct e as ([[o c] g3] & e3 & e).
  apply ih in e. rewrite (pick_values_asg (fun _ => True) rnd (fun _ => Logic.I) fuel _ _ _ _ _ _ e3) in e. apply (extends_trans _ (asg g1)); [exact (key_keeps _ _ _ _ e1)|]. apply (extends_trans _ (asg g2)); [exact (new_keeps _ _ _ _ e2)|exact e].
Qed.
Lemma warms_keep : forall l s g s' g', warms rnd fuel l s g = Generated (s', g') -> extends (asg g) (asg g').
Proof.
  induction l as [|con l ih]; intros s g s' g' e; cbn [warms] in e; [injection e as <- <-; intros y w k; exact k|].
  apply bind_gen in e. destruct e as ([k g1] & e1 & e). apply key_keeps in e1. destruct (IsInOriginal k s); cbn [draw] in e; (apply ih in e; apply (extends_trans _ (asg g1)); [exact e1|exact e]).
Qed.
Lemma storage_extends a g s b : StorageGenerate rnd fuel a g = Generated (s, b) -> extends a b.
Proof.
  intros e. unfold StorageGenerate in e. cbv zeta in e. destruct (neighbours config_conflict _); [discriminate|]. destruct (neighbours warm_conflict _); [discriminate|].
  apply bind_gen in e. destruct e as ([s1 g1] & e1 & e). apply bind_gen in e. destruct e as ([s2 g2] & e2 & e). cbn [draw] in e. apply bind_gen in e. destruct e as ([s3 g3] & e3 & e).
  injection e as <- <-. apply (extras_asg (fun _ => True) rnd (fun _ => Logic.I)) in e3. cbn [asg] in e3. rewrite e3. apply configs_keep in e1. apply warms_keep in e2. apply (extends_trans _ (asg g1)); [exact e1|exact e2].
Qed.
End Keep.

Lemma status_dec (s t : storage_status) : {s = t} + {s <> t}. Proof. decide equality. Qed.
Lemma storage_dec b st q : {storage_fulfils b st q} + {~ storage_fulfils b st q}.
Proof.
  destruct q as [s x y|x|x]; cbn.
  - destruct (b x) as [k|]; [|right; intros (? & ? & e & _); discriminate]. destruct (b y) as [v|]; [|right; intros (? & ? & _ & e & _); discriminate].
    destruct (status_dec (GetStorageStatus (read (s_original st) k) (read (s_current st) k) v) s) as [h|h]; [left; eauto|right; intros (? & ? & e1 & e2 & e3); congruence].
  - destruct (b x) as [k|]; [|right; intros (? & e & _); discriminate]. destruct (s_warm st k) eqn:e; [left; eauto|right; intros (? & e1 & e2); congruence].
  - destruct (b x) as [k|]; [|right; intros (? & e & _); discriminate]. destruct (s_warm st k) eqn:e; [right; intros (? & e1 & e2); congruence|left; eauto].
Qed.

Section Sound.
Variables (d : draws) (fuel : nat) (a : Assignment) (qs : list state_request).
Hypothesis hd : proper_draws d qs.
Hypothesis hfresh : fresh_addresses d a qs.
Hypothesis ha : words a.
Hypothesis hok : Forall state_request_ok qs.
Notation g := (state_generator qs).

Lemma part_ok {A} (f : state_request -> option A) (P : A -> Prop) : (forall q y, f q = Some y -> state_request_ok q -> P y) -> Forall P (part f qs).
Proof. intros h. apply Forall_forall. intros y hy. apply part_in in hy. destruct hy as (q & h1 & h2). apply (h q y h2). rewrite Forall_forall in hok. apply hok. exact h1. Qed.
Ltac by_part := apply part_ok; intros [] y e; try discriminate e; injection e as <-; cbn; tauto.
Lemma codes_ok : Forall code_request_ok (codes qs). Proof. by_part. Qed.
Lemma stacks_ok : Forall stack_request_ok (stacks qs). Proof. by_part. Qed.
Lemma accounts_ok : Forall account_request_ok (accounts qs). Proof. by_part. Qed.
Lemma blocks_ok : Forall block_request_ok (blocks qs). Proof. by_part. Qed.
Lemma gases_ok : Forall (fun c => typed tInt c /\ bounds c) (gases qs). Proof. by_part. Qed.
Lemma refunds_ok : Forall (fun c => typed tInt c /\ bounds c) (refunds qs). Proof. by_part. Qed.
Lemma codes_in q : In q (codes qs) <-> In (CodeHas q) qs.
Proof. unfold codes. rewrite part_in. split; [intros (r & h1 & h2); destruct r; try discriminate; injection h2 as <-; exact h1|intros h; exists (CodeHas q); auto]. Qed.

Definition freshP (v : Z) : Prop := forall i, ch_address (d_accounts d) i mod 2 ^ 160 <> v mod 2 ^ 160.
Lemma fresh_mod v : freshP v -> freshP (v mod 2 ^ 160).
Proof. intros h i. rewrite Z.mod_mod by lia. apply h. Qed.

(** The first part *)
Lemma first_sound status code readOnly pc gas refund self a2 : generate_first d a g = Generated (status, code, readOnly, pc, gas, refund, self, a2) ->
  (forall x v, a x = Some v -> a2 x = Some v \/ In (CodeHas (CodeVar x)) qs \/ In (CodeHas (DataVar x)) qs \/ In (SelfVar x) qs /\ 2 ^ 160 <= v) /\
  words a2 /\ holds freshP a2 /\ 0 <= status < 4 /\ 0 <= pc < 2 ^ 16 /\ 0 <= gas <= 500000000000 /\ - 500000000000 <= refund <= 500000000000 /\
  zlen code <= 24576 /\ Forall is_byte code /\ 0 <= self < 2 ^ 160 /\
  forall q, In q qs -> match q with
    | Bind x v => a2 x = Some v \/ In (CodeHas (CodeVar x)) qs \/ In (CodeHas (DataVar x)) qs \/ In (SelfVar x) qs /\ 2 ^ 160 <= v
    | HasStatus n => status = n | InMode r => readOnly = r | PcIs p => pc = p
    | PcVar x => exists v, a2 x = Some v /\ pc = v mod 2 ^ 16
    | SelfIs A => self = A | SelfVar x => a2 x = Some self
    | GasIs c => obeys gas c | RefundIs c => obeys refund c
    | CodeHas q => code_fulfils a2 code q
    | _ => True
    end.
Proof.
  intros e. unfold generate_first in e.
  apply bind_gen in e. destruct e as (a0 & e0 & e). apply bind_gen in e. destruct e as (st & est & e). apply bind_gen in e. destruct e as ([cd a1] & ecode & e).
  apply bind_gen in e. destruct e as (ro & ero & e). apply bind_gen in e. destruct e as (vs & evs & e). apply bind_gen in e. destruct e as (p & epc & e).
  apply bind_gen in e. destruct e as (ga & ega & e). apply bind_gen in e. destruct e as (re & ere & e). apply bind_gen in e. destruct e as (se & ese & e).
  injection e as -> -> -> -> -> -> -> <-.
  apply enforce_spec in e0. destruct e0 as (b1 & b2 & b3). apply status_spec in est. destruct est as [s1 s2].
  destruct (gen_parts qs NewStateGenerator) as (pcode & _ & _ & _ & _ & _ & _ & pgas & prefund). fold (state_generator qs) in pcode, pgas, prefund.
  rewrite pcode in ecode. change (fold_left code_request_call (codes qs) (gn_code NewStateGenerator)) with (code_generator (codes qs)) in ecode.
  rewrite pgas in ega. change (fold_left range_add (gases qs) (gn_gas NewStateGenerator)) with (range_solver 0 500000000000 (gases qs)) in ega.
  rewrite prefund in ere. change (fold_left range_add (refunds qs) (gn_refund NewStateGenerator)) with (range_solver (- 500000000000) 500000000000 (refunds qs)) in ere.
  assert (hw0 : words a0).
  { intros x v hv. apply b3 in hv. destruct hv as [hv|hv]; [apply (ha x v hv)|]. apply gen_bindings in hv. rewrite Forall_forall in hok. apply (hok _ hv). }
  assert (hf0 : holds freshP a0).
  { intros x v hv i. apply hfresh. apply b3 in hv. destruct hv as [hv|hv]; [do 3 right; left; eauto|]. apply gen_bindings in hv. do 4 right; left; eauto. }
  pose proof (code_generate_sound _ _ _ _ _ _ _ codes_ok (fun x v k => proj1 (hw0 x v k)) ecode) as (c1 & c2 & c3 & c4). rewrite Forall_forall in c3.
  assert (hpos : forall x o, In (OpVar x o) (codes qs) \/ In (CodeVar x) (codes qs) \/ In (DataVar x) (codes qs) -> exists v, a1 x = Some v /\ 0 <= v < 24576).
  { intros x o [h|[h|h]]; apply c3 in h; cbn in h.
    - destruct h as (v & hv & h1 & h2). exists v. split; [exact hv|]. apply start_nonneg in h1. destruct (Z.lt_ge_cases v (zlen code)); [lia|]. unfold znth in h2. destruct (v <? 0); [discriminate|].
      rewrite (proj2 (nth_error_None _ _)) in h2; [discriminate|unfold zlen in *; lia].
    - destruct h as (v & o' & hv & h1 & h2). exists v. split; [exact hv|]. apply start_nonneg in h1. destruct (Z.lt_ge_cases v (zlen code)); [lia|]. unfold znth in h2. destruct (v <? 0); [discriminate|].
      rewrite (proj2 (nth_error_None _ _)) in h2; [discriminate|unfold zlen in *; lia].
    - destruct h as (v & hv & h1 & (r & h2 & _ & h3)). exists v. split; [exact hv|]. apply start_nonneg in h2. lia. }
  assert (hP1 : forall P : Z -> Prop, (forall v, 0 <= v < 24576 -> P v) -> holds P a0 -> holds P a1).
  { intros P hp hh x v hv.
    destruct (existsb (fun q => match q with OpVar y _ | CodeVar y | DataVar y => x =? y | OpAt _ _ => false end) (codes qs)) eqn:ex.
    - apply existsb_exists in ex. destruct ex as (q & hq & hx). destruct q as [?|y o|y|y]; try discriminate; apply Z.eqb_eq in hx; subst y.
      + destruct (hpos x o ltac:(tauto)) as (w & hw & k). apply hp. assert (v = w) by congruence. lia.
      + destruct (hpos x 0 ltac:(tauto)) as (w & hw & k). apply hp. assert (v = w) by congruence. lia.
      + destruct (hpos x 0 ltac:(tauto)) as (w & hw & k). apply hp. assert (v = w) by congruence. lia.
    - apply (hh x). rewrite <- hv. symmetry. apply (code_other _ _ _ _ _ _ _ _ ecode).
      + intros o hin. assert (existsb (fun q => match q with OpVar y _ | CodeVar y | DataVar y => x =? y | OpAt _ _ => false end) (codes qs) = true); [|congruence]. apply existsb_exists. exists (OpVar x o). split; [exact hin|apply Z.eqb_refl].
      + intros hin. assert (existsb (fun q => match q with OpVar y _ | CodeVar y | DataVar y => x =? y | OpAt _ _ => false end) (codes qs) = true); [|congruence]. apply existsb_exists. exists (CodeVar x). split; [exact hin|apply Z.eqb_refl].
      + intros hin. assert (existsb (fun q => match q with OpVar y _ | CodeVar y | DataVar y => x =? y | OpAt _ _ => false end) (codes qs) = true); [|congruence]. apply existsb_exists. exists (DataVar x). split; [exact hin|apply Z.eqb_refl]. }
  assert (hw1 : words a1) by (apply (hP1 is_word); [unfold is_word; lia|exact hw0]).
  assert (hf1 : holds freshP a1) by (apply hP1; [intros v hv i; apply hfresh; left; exact hv|exact hf0]).
  destruct (self_spec _ _ _ _ _ ese) as (q1 & q2 & q3).
  assert (hself : 0 <= self < 2 ^ 160).
  { destruct q3 as [h|[(x & v & _ & ->)| ->]]; [|apply Z.mod_pos_bound; lia|apply Z.mod_pos_bound; lia]. apply gen_self in h. rewrite Forall_forall in hok. apply (hok _ h). }
  assert (hfself : freshP self).
  { destruct q3 as [h|[(x & v & hv & ->)| ->]].
    - intros i. apply hfresh. right. left. apply gen_self. exact h.
    - apply fresh_mod. apply (hf1 x v hv).
    - apply fresh_mod. intros i. apply hfresh. auto. }
  set (a2 := assign_self self (gn_selfVar g) a1).
  assert (hin : forall x, existsb (Z.eqb x) (gn_selfVar g) = true <-> In (SelfVar x) qs) by (intros x; rewrite CtStorageFacts.existsb_in; apply gen_selfVar).
  assert (h12 : forall x v, a1 x = Some v -> a2 x = Some v \/ In (SelfVar x) qs /\ a2 x = Some (v mod 2 ^ 160)).
  { intros x v hv. unfold a2. rewrite assign_spec. destruct (existsb (Z.eqb x) _) eqn:ex; [right|left; exact hv]. split; [apply hin; exact ex|]. f_equal. apply (q2 x v); [apply CtStorageFacts.existsb_in; exact ex|exact hv]. }
  assert (hsmall : forall x v, 0 <= v < 2 ^ 160 -> a1 x = Some v -> a2 x = Some v).
  { intros x v hb hv. destruct (h12 x v hv) as [h|[_ h]]; [exact h|]. rewrite Z.mod_small in h by exact hb. exact h. }
  assert (hkeep : forall x v, a0 x = Some v -> a2 x = Some v \/ In (CodeHas (CodeVar x)) qs \/ In (CodeHas (DataVar x)) qs \/ In (SelfVar x) qs /\ 2 ^ 160 <= v).
  { intros x v hv. destruct (c4 x v hv) as [h|h]; [|right; rewrite <- !codes_in; tauto]. destruct (h12 x v h) as [k|[k1 k2]]; [left; exact k|].
    destruct (Z.lt_ge_cases v (2 ^ 160)) as [hl|hl]; [left|right; right; right; split; [exact k1|exact hl]]. apply hsmall; [|exact h]. split; [|exact hl]. apply (hw1 x v h). }
  destruct (gas_spec (d_gas d) 500000000000 (gases qs) gas ltac:(lia) ltac:(apply hd) gases_ok 0 ltac:(lia) ega) as [g1 g2].
  destruct (gas_spec (d_refund d) 500000000000 (refunds qs) refund ltac:(lia) ltac:(apply hd) refunds_ok (- 500000000000) ltac:(lia) ere) as [r1 r2].
  destruct (pc_values_spec _ _ _ _ evs) as (v1 & v2 & v3). destruct (pc_spec _ _ _ _ epc) as [p1 p2].
  { intros v hv. apply v3 in hv. destruct hv as [hv|(? & ? & _ & _ & ->)]; [|apply Z.mod_pos_bound; lia]. apply gen_pc in hv. rewrite Forall_forall in hok. apply (hok _ hv). }
  split; [intros x v hv; apply hkeep; apply b1; exact hv|]. split; [|split; [|do 7 (split; [assumption|])]].
  - intros x v hv. unfold a2 in hv. rewrite assign_spec in hv. destruct (existsb _ _); [injection hv as <-; unfold is_word; lia|apply (hw1 x v hv)].
  - intros x v hv. unfold a2 in hv. rewrite assign_spec in hv. destruct (existsb _ _); [injection hv as <-; exact hfself|apply (hf1 x v hv)].
  - intros q hq. destruct q; try exact Logic.I.
    + apply hkeep. apply b2. apply gen_bindings. exact hq.
    + apply s2. apply gen_status. exact hq.
    + apply (readOnly_spec _ _ _ ero). apply gen_readOnly. exact hq.
    + apply p2. apply v1. apply gen_pc. exact hq.
    + destruct (v2 x) as (v & k1 & k2); [apply gen_pcVar; exact hq|]. apply p2 in k2. destruct (h12 x v k1) as [k|[_ k]]; [exists v; auto|]. exists (v mod 2 ^ 160). split; [exact k|].
      rewrite <- Zmod_div_mod; [exact k2|lia|lia|exists (2 ^ 144); reflexivity].
    + apply q1. apply gen_self. exact hq.
    + unfold a2. rewrite assign_spec. rewrite (proj2 (hin x) hq). reflexivity.
    + rewrite Forall_forall in g2. apply g2. apply part_in. exists (GasIs c). auto.
    + rewrite Forall_forall in r2. apply r2. apply part_in. exists (RefundIs c). auto.
    + apply codes_in in hq. pose proof (c3 _ hq) as k. destruct q as [p o|x o|x|x]; [exact k| | |].
      * destruct (hpos x o ltac:(tauto)) as (w & hw & hb). destruct k as (v & hv & k). exists v. split; [|exact k]. apply hsmall; [|exact hv]. assert (v = w) by congruence. lia.
      * destruct (hpos x 0 ltac:(tauto)) as (w & hw & hb). destruct k as (v & o & hv & k). exists v, o. split; [|exact k]. apply hsmall; [|exact hv]. assert (v = w) by congruence. lia.
      * destruct (hpos x 0 ltac:(tauto)) as (w & hw & hb). destruct k as (v & hv & k). exists v. split; [|exact k]. apply hsmall; [|exact hv]. assert (v = w) by congruence. lia.
Qed.

Lemma rest_sound self a1 des sto tra acc blo bl ti sta b : words a1 -> holds freshP a1 ->
  generate_rest d fuel self a1 g = Generated (des, sto, tra, acc, blo, bl, ti, sta, b) ->
  extends a1 b /\ zlen (GetCode acc self) = 42 /\ zlen sta <= 1024 /\ 0 <= blo < 2 ^ 64 /\ 0 <= bl < 2 ^ 64 /\ revision_at ti = revision_at bl /\
  forall q, In q qs -> match q with
    | StackHas q => stack_fulfils b sta q
    | StorageHas q => storage_fulfils b sto q \/ ~ (one_config (storages qs) /\ separate b (storages qs) /\ values_not_keys (fun _ => None) (storages qs))
    | TransientHas q => transient_fulfils b tra q
    | AccountsHave q => account_fulfils b acc q \/ overlooked b b self (accounts qs) q
    | BlockHas q => block_fulfils bl b q \/ (exists x, In (OneOfLast256 x) (blocks qs) /\ In (Offset x 0) (blocks qs)) \/ 1 <= bl <= 255 /\ exists x, In (NoneOfLast256 x) (blocks qs)
    | BlobsHave q => blob_fulfils blo b q \/ exists x y m, In (Present x) (blobs qs) /\ In (Absent y) (blobs qs) /\ b y = Some m /\ (b x = Some m \/ m = 0)
    | IsDestructed r => des = r
    | _ => True
    end.
Proof.
  intros hw1 hf1 e. destruct hd as (_ & _ & dstack & dblock & dtime & dtx & dranges & dsto & dtra & _ & dsized & dpool & do1 & do2 & do3 & do4 & do5 & do6 & do7).
  unfold generate_rest in e. apply bind_gen in e. destruct e as (de & ede & e). apply bind_gen in e. destruct e as ([so a2] & eso & e). apply bind_gen in e. destruct e as ([tr a3] & etr & e).
  apply bind_gen in e. destruct e as ([ac a4] & eac & e). apply bind_gen in e. destruct e as ([bs a5] & ebs & e). apply bind_gen in e. destruct e as ([[bk tm] a6] & ebk & e).
  apply bind_gen in e. destruct e as (sk & esk & e). injection e as -> -> -> -> -> -> -> -> ->.
  destruct (gen_parts qs NewStateGenerator) as (_ & pstack & psto & ptra & pacc & pblock & ptx & _ & _). fold (state_generator qs) in pstack, psto, ptra, pacc, pblock, ptx.
  rewrite psto in eso. change (fold_left storage_request_call (storages qs) (gn_storage NewStateGenerator)) with (storage_generator (storages qs)) in eso.
  rewrite ptra in etr. change (fold_left transient_request_call (SpecState.transients qs) (gn_transient NewStateGenerator)) with (transient_generator (SpecState.transients qs)) in etr.
  rewrite pacc in eac. change (fold_left account_call (accounts qs) (gn_accounts NewStateGenerator)) with (accounts_generator (accounts qs)) in eac.
  rewrite ptx in ebs. change (fold_left blob_call (blobs qs) (gn_tx NewStateGenerator)) with (tx_generator (blobs qs)) in ebs.
  rewrite pblock in ebk. change (fold_left block_call (blocks qs) (gn_block NewStateGenerator)) with (block_generator (blocks qs)) in ebk.
  rewrite pstack in esk. change (fold_left stack_request_call (stacks qs) (gn_stack NewStateGenerator)) with (stack_generator (stacks qs)) in esk.
  assert (z0 : is_word 0) by (unfold is_word; lia). assert (zf : freshP 0) by (intros i; apply hfresh; left; lia).
  assert (hw2 : words a2) by (apply (storage_P is_word (d_storage d) dsto z0 fuel a1 _ _ _ hw1 eso)).
  assert (hf2 : holds freshP a2) by (apply (storage_P freshP (d_storage d)) with (2 := zf) (4 := eso); [intros j i; apply hfresh; do 5 right; left; eauto|exact hf1]).
  assert (hw3 : words a3) by (apply (transient_P is_word (d_transient d) (fun i => proj1 (dtra i)) fuel _ _ _ _ _ hw2 etr)).
  assert (hf3 : holds freshP a3) by (apply (transient_P freshP (d_transient d)) with (3 := etr); [intros j i; apply hfresh; do 6 right; eauto|exact hf2]).
  assert (hap : apart (d_accounts d) a3) by (intros i x A (v & hv & ->); apply (hf3 x v hv)).
  assert (hw4 : words a4).
  { apply (accounts_P is_word (d_accounts d)) with (3 := eac); [|exact hw3]. intros i. unfold is_word, NewAddress. pose proof (Z.mod_pos_bound (ch_address (d_accounts d) i) (2 ^ 160) ltac:(lia)). lia. }
  pose proof (tx_words (d_tx d) (d_tx_order d) (d_tx_order' d) a4 (tx_generator (blobs qs)) dtx hw4) as hw5. rewrite ebs in hw5.
  (* storage *)
  assert (x1 : extends a1 a2 /\ (one_config (storages qs) -> separate b (storages qs) -> values_not_keys (fun _ => None) (storages qs) -> extends a2 b -> Forall (storage_fulfils a2 sto) (storages qs)) /\ extends a1 a2).
  { assert (hext : extends a1 a2) by (exact (storage_extends _ _ _ _ _ _ eso)). split; [exact hext|split; [|exact hext]]. intros o1 o2 o3 hx.
    apply (storage_generate_sound (d_storage d) fuel a1 (storages qs) sto a2 o1) in eso; [exact (proj2 eso)| |].
    - destruct o2 as [s1 s2]. split; [intros s x y s' x' y' k h1 h2 h3 h4 h5; apply (s1 s x y s' x' y' k h1 h2 h3); apply hx, hext; assumption|intros x x' k h1 h2 h3 h4 h5; apply (s2 x x' k h1 h2 h3); apply hx, hext; assumption].
    - intros s x y q h1 _ h2. exact (o3 s x y q h1 eq_refl h2). }
  destruct x1 as (x1 & f1 & _).
  destruct (transient_sound (d_transient d) a2 (SpecState.transients qs) (d_transient_order d) do1 fuel tra a3 etr) as [x2 f2].
  destruct (accounts_sound (d_accounts d) fuel a3 self (accounts qs) acc a4 hap dsized accounts_ok eac) as (x3 & f3 & f4).
  destruct (tx_sound _ _ _ _ _ _ _ dtx hw4 do2 do3 ebs) as (f5 & x4 & f6).
  pose proof (block_spec (d_ranges d) dranges (d_time d) dtime a5 hw5 (blocks qs) blocks_ok _ _ _ _ do4 do5 do6 do7 (d_block d) dblock) as hb. rewrite ebk in hb. destruct hb as (f7 & x5 & f8 & f9).
  pose proof (stack_generate_sound (stacks qs) b (d_pool d) stacks_ok dpool (d_stack d) (d_stack_fill d) dstack) as hs. rewrite esk in hs. destruct hs as [f10 f11].
  assert (x45 : extends a4 b) by (apply (extends_trans _ a5); assumption). assert (x35 : extends a3 b) by (apply (extends_trans _ a4); assumption). assert (x25 : extends a2 b) by (apply (extends_trans _ a3); assumption).
  split; [apply (extends_trans _ a2); assumption|]. do 5 (split; [assumption|]).
  intros q hq. destruct q; try exact Logic.I.
  - rewrite Forall_forall in f11. apply f11. apply part_in. exists (StackHas q). auto.
  - destruct (storage_dec b sto q) as [h|h]; [left; exact h|right]. intros (o1 & o2 & o3). apply h. apply (storage_mono a2); [exact x25|]. specialize (f1 o1 o2 o3 x25). rewrite Forall_forall in f1.
    apply f1. apply part_in. exists (StorageHas q). auto.
  - apply (transient_mono a3); [exact x35|]. apply f2; [apply part_in; exists (TransientHas q); auto|left; intros n; apply dtra].
  - assert (hin : In q (accounts qs)) by (apply part_in; exists (AccountsHave q); auto). rewrite Forall_forall in f4. destruct (f4 q hin) as [h|h]; [left; apply (account_mono a4); assumption|right].
    destruct q as [x|x|x v|x v|x|x]; try exact h; cbn in h |- *.
    + apply (names_mono a4); assumption.
    + destruct h as (h1 & A & h2 & (y & v & h3 & h4) & h5). split.
      * intros (w & hw & e). apply h1. destruct h2 as (w' & hw' & _). exists w'. split; [exact hw'|]. rewrite e. f_equal. apply x45 in hw'. congruence.
      * exists A. split; [apply (names_mono a4); assumption|]. split; [exists y, v; split; [apply (names_mono a4); assumption|exact h4]|].
        intros z u (w & hw & e) hz. apply (h5 z u); [|exact hz]. destruct (f4 _ hz) as [(B & (w' & hw' & _) & _)|[]]. cbn in hw'. exists w'. split; [exact hw'|]. rewrite e. f_equal. apply x45 in hw'. congruence.
    + destruct h as (A & y & h1 & h2 & h3 & h4). exists A, y. split; [exact h1|]. split; [apply (names_mono a3); assumption|]. split; [apply (names_mono a3); assumption|exact h4].
  - destruct f9 as [h|[h|(h1 & x & h2 & _)]]; [left|right; left; exact h|right; right; split; [exact h1|exists x; exact h2]].
    rewrite Forall_forall in h. apply h. apply part_in. exists (BlockHas q). auto.
  - destruct f6 as [h|(x & y & m & h1 & h2 & h3 & h4)]; [left|right].
    + apply (blob_mono blo a5); [exact x5|]. rewrite Forall_forall in h. apply h. apply part_in. exists (BlobsHave q). auto.
    + assert (x4b : extends a4 b) by exact x45. exists x, y, m. split; [exact h1|split; [exact h2|split; [apply x4b; exact h3|]]]. destruct h4 as [h4|[_ h4]]; [left; apply x4b; exact h4|right; exact h4].
  - destruct (gen_destructed qs NewStateGenerator) as [k1 k2]. fold (state_generator qs) in k1, k2. apply destructed_spec in ede. destruct ede as [k3 k4]. destruct b0; [apply k3, k1|apply k4, k2]; right; exact hq.
Qed.

Theorem state_sound s b : StateGenerate d fuel a g = Generated (s, b) ->
  state_valid s /\ Forall (fun q => state_fulfils b s q \/ missed b s qs q) qs /\
  forall x v, a x = Some v -> b x = Some v \/ In (CodeHas (CodeVar x)) qs \/ In (CodeHas (DataVar x)) qs \/ In (SelfVar x) qs /\ 2 ^ 160 <= v.
Proof.
  intros e. unfold StateGenerate in e. apply bind_gen in e. destruct e as ([[[[[[[st cd] ro] pc] ga] re] se] a1] & e1 & e). apply bind_gen in e. destruct e as ([[[[[[[[de so] tr] ac] bs] bk] tm] sk] a2] & e2 & e).
  injection e as <- <-. apply first_sound in e1. destruct e1 as (k1 & k2 & k3 & k4 & k5 & k6 & k7 & k8 & k9 & k10 & k11).
  apply (rest_sound _ _ _ _ _ _ _ _ _ _ _ k2 k3) in e2. destruct e2 as (m1 & m2 & m3 & m4 & m5 & m6 & m7).
  split; [|split].
  - unfold state_valid. cbn [s_status s_readOnly s_pc s_gas s_refund s_code s_self s_destructed s_storage s_transient s_accounts s_blobs s_block s_time s_revision s_stack].
    rewrite (revision_block bk) by exact m5. repeat split; try tauto; try lia.
  - apply Forall_forall. intros q hq. specialize (k11 q hq). specialize (m7 q hq).
    destruct q; cbn [state_fulfils missed s_status s_readOnly s_pc s_gas s_refund s_code s_self s_destructed s_storage s_transient s_accounts s_blobs s_block s_time s_revision s_stack];
      try (left; exact k11); try (left; exact m7); try exact m7.
    + destruct k11 as [k|k]; [left; apply m1; exact k|right; exact k].
    + left. destruct k11 as (v & hv & k). exists v. split; [apply m1; exact hv|exact k].
    + left. apply m1. exact k11.
    + left. destruct q; cbn in *; [exact k11|destruct k11 as (p & h1 & h2); exists p; auto|destruct k11 as (p & o & h1 & h2); exists p, o; auto|destruct k11 as (p & h1 & h2); exists p; auto].
  - intros x v hv. destruct (k1 x v hv) as [h|h]; [left; apply m1; exact h|right; exact h].
Qed.
End Sound.
