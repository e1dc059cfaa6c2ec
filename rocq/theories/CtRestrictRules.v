(** C95 for the rules of the specification. *)
From Verif Require Import Base Host GoStorage SpecEvm Lfvm CtRules SpecRules CtSolve SpecSolve CtGen SpecGen CtCodeGen SpecCode CtContext SpecContext CtAccounts SpecAccounts CtState SpecState CtStateFacts CtStateFacts2 CtStateFacts3 CtStateFacts4 CtRestrict SpecRestrict CtRestrictFacts.
From Coq Require Import Lia ZArith List Bool Permutation.
Import ListNotations.
Open Scope Z_scope.

(** ** Checks by computation *)
Definition isword (v : Z) : bool := (0 <=? v) && (v <? 2 ^ 256).
Definition isparam (e : expr) : bool := match e with EParam i => (0 <=? i) && (i <? 2 ^ 62) | _ => false end.
Definition isposition (e : expr) : bool := match e with EPc => true | _ => isparam e end.
Definition isconstant (c : comparison) (e : expr) (v : Z) : bool :=
  match e with
  | EStatus => true
  | EReadOnly => (v =? 0) || (v =? 1)
  | EGas | ESize => (- 2 ^ 63 + 2 <=? v) && (v <=? 2 ^ 63 - 3)
  | EPc => isword v
  | EParam _ => isparam e && isword v
  | EOp p => isposition p && ((0 <=? v) && (v <? 256))
  | EBalanceOfSelf => isword v && (2 <=? v) && (v <=? 2 ^ 256 - 3) || isword v && match c with Lt | Gt => false | _ => true end || (v =? 0) && match c with Gt => true | _ => false end
  end.
Definition isrevision (r : Z) : bool := (0 <=? r) && (r <=? 5) || (r =? 99).
Definition isfine (c : cond) : bool :=
  match c with
  | Cmp c e v => isconstant c e v
  | RevisionBounds lo hi => isrevision lo && isrevision hi
  | IsCode e | IsData e => isposition e
  | StorageConfiguration _ k v => isparam k && isparam v
  | IsStorageWarm e | IsStorageCold e | TransientNonZero e | TransientZero e | AccountIsEmpty e | AccountIsNotEmpty e | IsAddressWarm e | IsAddressCold e
  | InRange256 e | OutOfRange256 e | HasBlobHash e | HasNoBlobHash e => isparam e
  | HasSelfDestructed | HasNotSelfDestructed => true
  end.
Lemma isword_ok v : isword v = true -> is_word v.
Proof. unfold isword, is_word. rewrite andb_true_iff, Z.leb_le, Z.ltb_lt. tauto. Qed.
Lemma isparam_ok e : isparam e = true -> parameter e.
Proof. destruct e; try discriminate. unfold isparam, parameter. rewrite andb_true_iff, Z.leb_le, Z.ltb_lt. tauto. Qed.
Lemma isposition_ok e : isposition e = true -> position e.
Proof. destruct e; try (intros h; right; apply isparam_ok; exact h). left. reflexivity. Qed.
Lemma isrevision_ok r : isrevision r = true -> 0 <= r <= 5 \/ r = 99.
Proof. unfold isrevision. rewrite orb_true_iff, andb_true_iff, !Z.leb_le, Z.eqb_eq. tauto. Qed.
Lemma isfine_ok c : isfine c = true -> cond_ok c.
Proof.
  destruct c; cbn [isfine cond_ok]; intros h; try exact Logic.I; try (apply isparam_ok; exact h); try (apply isposition_ok; exact h).
  - destruct e; cbn [isconstant constant_ok] in *.
    + exact Logic.I.
    + rewrite orb_true_iff, !Z.eqb_eq in h. exact h.
    + rewrite andb_true_iff, !Z.leb_le in h. exact h.
    + rewrite andb_true_iff, !Z.leb_le in h. exact h.
    + apply isword_ok, h.
    + apply andb_true_iff in h. split; [apply isparam_ok, h|apply isword_ok, h].
    + rewrite !andb_true_iff, Z.leb_le, Z.ltb_lt in h. split; [apply isposition_ok, h|lia].
    + rewrite !orb_true_iff, !andb_true_iff, !Z.leb_le, Z.eqb_eq in h. destruct h as [[h|[h1 h2]]|[-> h2]].
      * split; [apply isword_ok; tauto|]. split; intros _; lia.
      * split; [apply isword_ok; tauto|]. split; intros ->; discriminate.
      * split; [unfold is_word; lia|]. split; [intros ->; discriminate|intros _; lia].
  - rewrite andb_true_iff in h. split; apply isrevision_ok, h.
  - rewrite andb_true_iff in h. split; apply isparam_ok, h.
Qed.

(** at most one key variable, one configuration, a different variable for its value *)
Definition storages_fine (l : list storage_request) : bool :=
  match l with
  | [] => true
  | q0 :: _ => forallb (fun q => (key_of q =? key_of q0) && match q with Config s _ y =>
      negb (y =? key_of q0) && forallb (fun r => match r with Config s' _ y' => status_is s s' && (y =? y') | _ => true end) l | _ => true end) l
  end.
Lemma status_is_eq a b : status_is a b = true -> a = b.
Proof. destruct a, b; cbn; intros h; first [reflexivity|discriminate h]. Qed.
Lemma storages_fine_ok b l : storages_fine l = true -> one_config l /\ separate b l /\ values_not_keys (fun _ => None) l.
Proof.
  intros h. assert (hk : exists k, forall q, In q l -> key_of q = k /\ match q with Config s _ y => y <> k /\ (forall r, In r l -> match r with Config s' _ y' => s = s' /\ y = y' | _ => True end) | _ => True end).
  { destruct l as [|q0 l0]; [exists 0; intros q []|]. exists (key_of q0). unfold storages_fine in h. rewrite forallb_forall in h. intros q hq. specialize (h q hq). apply andb_true_iff in h. destruct h as [h1 h2]. apply Z.eqb_eq in h1.
    split; [exact h1|]. destruct q; [|exact Logic.I|exact Logic.I]. apply andb_true_iff in h2. destruct h2 as [h2 h3]. rewrite negb_true_iff, Z.eqb_neq in h2. split; [exact h2|].
    rewrite forallb_forall in h3. intros r hr. specialize (h3 r hr). destruct r; try exact Logic.I. apply andb_true_iff in h3. destruct h3 as [h3 h4]. apply Z.eqb_eq in h4. split; [apply status_is_eq, h3|exact h4]. }
  destruct hk as (k & hk). split; [|split; [split|]].
  - intros s x y s' y' i1 i2. destruct (hk _ i1) as (_ & _ & h3). exact (h3 _ i2).
  - intros s x y s' x' y' k' i1 i2 hne. destruct (hk _ i1) as (e1 & _), (hk _ i2) as (e2 & _). cbn in e1, e2. congruence.
  - intros x x' k' i1 i2 hne. destruct (hk _ i1) as (e1 & _), (hk _ i2) as (e2 & _). cbn in e1, e2. congruence.
  - intros s x y q i1 _ i2. destruct (hk _ i1) as (_ & e1 & _), (hk _ i2) as (e2 & _). congruence.
Qed.
Definition accounts_fine (l : list account_request) : bool :=
  forallb (fun q => match q with AtMost y _ => y =? 1 | ColdAt x => forallb (fun r => match r with WarmAt y => y =? x | _ => true end) l | _ => true end) l.
Definition blobs_fine (l : list blob_request) : bool :=
  forallb (fun q => match q with Present _ => forallb (fun r => match r with Absent _ => false | _ => true end) l | _ => true end) l.
Definition self_fine (cs : list cond) : bool :=
  negb (existsb (fun q => match q with AtMost _ _ => true | _ => false end) (SpecState.accounts (asked_all cs))) || existsb (fun q => match q with SelfVar x => x =? 1 | _ => false end) (asked_all cs).
Definition ranges_fine (cs : list cond) : bool := negb (existsb (fun c => match c with InRange256 _ => true | _ => false end) cs) || negb (existsb (fun c => match c with OutOfRange256 _ => true | _ => false end) cs).
Definition panics (cs : list cond) : bool := match RestrictAll cs NewStateGenerator with Some _ => false | None => true end.
Definition rule_fine (r : rule) : bool :=
  let cs := r_conditions r in let qs := asked_all cs in
  forallb isfine cs && storages_fine (storages qs) && accounts_fine (SpecState.accounts qs) && blobs_fine (blobs qs) && self_fine cs && negb (panics cs) && ranges_fine cs.
Lemma rules_fine tx keccak : forallb rule_fine (getAllRules tx keccak) = true.
Proof. vm_compute. reflexivity. Qed.

Lemma in_part {A} (f : state_request -> option A) x : forall qs, In x (part f qs) <-> exists r, In r qs /\ f r = Some x.
Proof. intros qs. apply part_in. Qed.
Lemma in_accounts qs q : In q (SpecState.accounts qs) <-> In (AccountsHave q) qs.
Proof. unfold SpecState.accounts. rewrite in_part. split; [intros (r & h1 & h2); destruct r; try discriminate h2; injection h2 as ->; exact h1|intros h; exists (AccountsHave q); auto]. Qed.
Lemma in_blocks qs q : In q (blocks qs) <-> In (BlockHas q) qs.
Proof. unfold blocks. rewrite in_part. split; [intros (r & h1 & h2); destruct r; try discriminate h2; injection h2 as ->; exact h1|intros h; exists (BlockHas q); auto]. Qed.

(** what conditions ask for in blocks and accounts *)
Lemma asked_blocks c q : In (BlockHas q) (asked c) -> (exists lo hi, c = RevisionBounds lo hi /\ q = Revisions lo hi) \/ (exists e, c = InRange256 e /\ q = OneOfLast256 (variable e)) \/ exists e, c = OutOfRange256 e /\ q = NoneOfLast256 (variable e).
Proof.
  intros h. destruct c as [c e v| | | | | | | | | | | | | | | | | |]; cbn [asked] in h.
  { exfalso. assert (hx : forall k w, ~ In (BlockHas q) (asked_expr k e w)).
    { intros k w hi. destruct e; cbn [asked_expr] in hi; try (destruct hi as [hi|[]]; discriminate hi).
      - destruct hi as [hi|[hi|[]]]; [|discriminate hi]. destruct e; discriminate hi.
      - destruct hi as [hi|hi]; [discriminate hi|]. apply in_map_iff in hi. destruct hi as (z & hz & _). discriminate hz. }
    destruct c; eapply hx; exact h. }
  all: cbn [In] in h; repeat match type of h with _ \/ _ => destruct h as [h|h] end; try contradiction; try discriminate h;
    try (match type of h with bound ?e = _ => destruct e; discriminate h end).
  - left. injection h as <-. eauto.
  - right. left. injection h as <-. eauto.
  - right. right. injection h as <-. eauto.
Qed.
Lemma asked_empty c x : In (AccountsHave (Empty x)) (asked c) -> exists e, c = AccountIsEmpty e /\ x = variable e.
Proof.
  intros h. destruct c as [c e v| | | | | | | | | | | | | | | | | |]; cbn [asked] in h.
  { exfalso. assert (hx : forall k w, ~ In (AccountsHave (Empty x)) (asked_expr k e w)).
    { intros k w hi. destruct e; cbn [asked_expr] in hi; try (destruct hi as [hi|[]]; discriminate hi).
      - destruct hi as [hi|[hi|[]]]; [|discriminate hi]. destruct e; discriminate hi.
      - destruct hi as [hi|hi]; [discriminate hi|]. apply in_map_iff in hi. destruct hi as (z & hz & hi). injection hz as ->. destruct k; cbn [In] in hi; intuition discriminate. }
    destruct c; eapply hx; exact h. }
  all: cbn [In] in h; repeat match type of h with _ \/ _ => destruct h as [h|h] end; try contradiction; try discriminate h;
    try (match type of h with bound ?e = _ => destruct e; discriminate h end).
  injection h as <-. eauto.
Qed.
Lemma asked_bind c x v : ~ In (Bind x v) (asked c).
Proof.
  intros h. destruct c as [c e w| | | | | | | | | | | | | | | | | |]; cbn [asked] in h.
  { assert (hx : forall k w, ~ In (Bind x v) (asked_expr k e w)).
    { intros k u hi. destruct e; cbn [asked_expr] in hi; try (destruct hi as [hi|[]]; discriminate hi).
      - destruct hi as [hi|[hi|[]]]; [|discriminate hi]. destruct e; discriminate hi.
      - destruct hi as [hi|hi]; [discriminate hi|]. apply in_map_iff in hi. destruct hi as (z & hz & hi). discriminate hz. }
    destruct c; eapply hx; exact h. }
  all: cbn [In] in h; repeat match type of h with _ \/ _ => destruct h as [h|h] end; try contradiction; try discriminate h;
    try (match type of h with bound ?e = _ => destruct e; discriminate h end).
Qed.

Theorem rules_sound : forall tx keccak r, In r (getAllRules tx keccak) ->
  (forall d fuel, GenerateSatisfyingState d fuel (r_conditions r) <> None) /\
  forall d fuel, proper_draws d (asked_all (r_conditions r)) -> fresh_addresses d (fun _ => None) (asked_all (r_conditions r)) ->
  forall s b, GenerateSatisfyingState d fuel (r_conditions r) = Some (Generated (s, b)) -> Forall (fun c => Check s c = Some true \/ remains s (r_conditions r) c) (r_conditions r).
Proof.
  intros tx keccak r hr. pose proof (rules_fine tx keccak) as hall. rewrite forallb_forall in hall. specialize (hall r hr). unfold rule_fine in hall. cbv zeta in hall. set (cs := r_conditions r) in *.
  rewrite !andb_true_iff in hall. destruct hall as ((((((h1 & h2) & h3) & h4) & h5) & h6) & h7).
  assert (hok : Forall cond_ok cs). { apply Forall_forall. intros c hc. rewrite forallb_forall in h1. apply isfine_ok, h1, hc. }
  split.
  { intros d fuel e. unfold GenerateSatisfyingState in e. unfold panics in h6. destruct (RestrictAll cs NewStateGenerator); [discriminate e|discriminate h6]. }
  intros d fuel hd hf s b hg. pose proof (conditions_sound d fuel cs hok hd hf s b hg) as hs.
  unfold GenerateSatisfyingState in hg. destruct (RestrictAll cs NewStateGenerator) as [g|] eqn:er; [|discriminate].
  pose proof (asked_all_ok _ _ _ hok er) as hq. pose proof (restrict_all_asked _ _ _ hok er) as eg. subst g. injection hg as hg.
  assert (hw : words (fun _ : Z => None)) by (intros x v e; discriminate).
  destruct (state_sound d fuel (fun _ => None) (asked_all cs) hd hf hw hq s b hg) as (hv & hful & _).
  assert (hself : forall q, In q (asked_all cs) -> match q with HasStatus _ | StackHas _ | SelfVar _ => True | _ => False end -> state_fulfils b s q).
  { intros q hi hk. rewrite Forall_forall in hful. destruct (hful q hi) as [h|h]; [exact h|]. destruct q; try destruct hk; destruct h. }
  rewrite Forall_forall in hs. apply Forall_forall. intros c hc. destruct (hs c hc) as [h|(q & hi & hm)]; [left; exact h|]. right.
  assert (hall : forall q, In q (asked c) -> In q (asked_all cs)) by (intros q' i; apply in_flat_map; exists c; split; assumption).
  destruct q; cbn [missed] in hm; try contradiction.
  - exfalso. eapply asked_bind. exact hi.
  - exfalso. apply hm. apply storages_fine_ok. exact h2.
  - assert (ha : In q (SpecState.accounts (asked_all cs))) by (apply in_accounts, hall, hi).
    destruct q; cbn [overlooked] in hm; try contradiction.
    + left. destruct (asked_empty _ _ hi) as (e & -> & ->). assert (hp : parameter e) by (rewrite Forall_forall in hok; exact (hok _ hc)).
      assert (hb : state_fulfils b s (bound e)). { apply hself; [apply hall; left; reflexivity|]. destruct e; try destruct hp. exact Logic.I. }
      destruct (param_eval b s e hp hb) as (v & e1 & e2). destruct hm as (w & e3 & e4). exists e, v. split; [reflexivity|]. split; [exact e2|]. congruence.
    + exfalso. destruct hm as (hn & A & n1 & (y & v & n2 & n3) & _). unfold accounts_fine in h3. rewrite forallb_forall in h3. pose proof (h3 _ n3) as hy. cbn in hy. apply Z.eqb_eq in hy. subst y.
      unfold self_fine in h5. assert (hx : existsb (fun q => match q with AtMost _ _ => true | _ => false end) (SpecState.accounts (asked_all cs)) = true) by (apply existsb_exists; exists (AtMost 1 v); auto).
      rewrite hx in h5. cbn [negb orb] in h5. apply existsb_exists in h5. destruct h5 as (q & i1 & i2). destruct q; try discriminate i2. apply Z.eqb_eq in i2. subst x0.
      pose proof (hself _ i1 Logic.I) as hb. cbn [state_fulfils] in hb. destruct n2 as (u & e1 & e2). assert (u = s_self s) by congruence. subst u. apply hn. destruct n1 as (u & e3 & e4). exists u. split; [exact e3|].
      rewrite <- e4, e2. symmetry. apply Z.mod_small. apply hv.
    + exfalso. destruct hm as (A & y & hne & n1 & n2 & n3). unfold accounts_fine in h3. rewrite forallb_forall in h3. pose proof (h3 _ ha) as hy. cbn in hy. rewrite forallb_forall in hy. specialize (hy _ n3). cbn in hy. apply Z.eqb_eq in hy. congruence.
  - right. destruct hm as [(x & n1 & n2)|(hr1 & x & n1)].
    + exfalso. apply in_blocks, in_flat_map in n2. destruct n2 as (c' & _ & n2). apply asked_blocks in n2. destruct n2 as [(lo & hi' & _ & e)|[(e' & _ & e)|(e' & _ & e)]]; discriminate e.
    + split; [exact hr1|]. apply in_blocks, in_flat_map in n1. destruct n1 as (c' & m1 & n1). apply asked_blocks in n1.
      destruct n1 as [(lo & hi' & _ & e)|[(e' & _ & e)|(e' & -> & e)]]; try discriminate e.
      apply asked_blocks in hi. destruct hi as [(lo & hi' & -> & _)|[(e1 & -> & _)|(e1 & -> & _)]]; [exists e'; split; [exact m1|]; right; eauto| |].
      * exfalso. unfold ranges_fine in h7. apply orb_true_iff in h7. rewrite !negb_true_iff in h7.
        destruct h7 as [h7|h7]; apply not_true_iff_false in h7; apply h7, existsb_exists; [exists (InRange256 e1); split; [exact hc|reflexivity]|exists (OutOfRange256 e'); split; [exact m1|reflexivity]].
      * exists e1. split; [exact hc|]. left. reflexivity.
  - exfalso. destruct hm as (x & y & m & n1 & n2 & _). unfold blobs_fine in h4. rewrite forallb_forall in h4. pose proof (h4 _ n1) as hy. cbn in hy. rewrite forallb_forall in hy. specialize (hy _ n2). discriminate hy.
Qed.

(** A condition that counts down twice to a negative number: no state is generated. *)
Theorem never_generated : forall d fuel cs, Forall cond_ok cs -> proper_draws d (asked_all cs) -> fresh_addresses d (fun _ => None) (asked_all cs) ->
  In (Cmp Lt EGas 1) cs \/ In (Cmp Lt ESize 1) cs -> forall s b, GenerateSatisfyingState d fuel cs <> Some (Generated (s, b)).
Proof.
  intros d fuel cs hok hd hf hin s b hg. unfold GenerateSatisfyingState in hg. destruct (RestrictAll cs NewStateGenerator) as [g|] eqn:er; [|discriminate].
  pose proof (asked_all_ok _ _ _ hok er) as hq. pose proof (restrict_all_asked _ _ _ hok er) as eg. subst g. injection hg as hg.
  assert (hw : words (fun _ : Z => None)) by (intros x v e; discriminate).
  destruct (state_sound d fuel (fun _ => None) (asked_all cs) hd hf hw hq s b hg) as (hv & hful & _). rewrite Forall_forall in hful.
  destruct hin as [hin|hin].
  - assert (hi : In (GasIs (SpecSolve.AtMost (-1))) (asked_all cs)) by (apply in_flat_map; exists (Cmp Lt EGas 1); split; [exact hin|left; reflexivity]).
    destruct (hful _ hi) as [h|h]; [|destruct h]. cbn [state_fulfils obeys] in h. destruct hv as (_ & _ & k & _). lia.
  - assert (hi : In (StackHas (MaxSize (-1))) (asked_all cs)) by (apply in_flat_map; exists (Cmp Lt ESize 1); split; [exact hin|left; reflexivity]).
    destruct (hful _ hi) as [h|h]; [|destruct h]. cbn [state_fulfils stack_fulfils] in h. unfold zlen in h. lia.
Qed.
