(** Proofs about the transient storage generator. *)
From Verif Require Import Base Host GoStorage CtSolve CtGen SpecGen CtStorageFacts CtGenTerm.
From Coq Require Import Permutation.

Section Gen.
Variables (rnd : nat -> Z) (fuel : nat) (a : Assignment) (all : list (Z * bool)).
Hypothesis hnd : NoDup (map fst all).
Let iskey (x : Z) : Prop := In x (map fst all).

Definition from_rnd (s : Z -> option Z) : Prop := forall k v, s k = Some v -> exists n, v = rnd n.

Lemma fun_all x b c : In (x, b) all -> In (x, c) all -> b = c.
Proof.
  intros h1 h2. clear -hnd h1 h2. induction all as [|[y d] l IH]; [destruct h1|]. cbn in hnd. inversion hnd as [|? ? h3 h4]; subst.
  destruct h1 as [h1|h1], h2 as [h2|h2]; [congruence| | |].
  - inversion h1; subst. exfalso. apply h3. apply (in_map fst) in h2. exact h2.
  - inversion h2; subst. exfalso. apply h3. apply (in_map fst) in h1. exact h1.
  - apply IH; assumption.
Qed.

Lemma ginv_put g d x k : ginv a iskey g -> asg g x = Some k -> ginv a iskey (mkG d (used g) (put (asg g) x k)).
Proof.
  intros [h1 h2 h3] hx. assert (he : forall y, put (asg g) x k y = asg g y) by (intros y; unfold put; destruct (Z.eqb_spec y x); [subst; congruence|reflexivity]).
  split; cbn.
  - intros y v hy. rewrite he. apply h1. exact hy.
  - intros y v hy hv. rewrite he in hv. apply (h2 y); assumption.
  - intros y z v hy hz hn q1 q2. rewrite he in q1, q2. apply (h3 y z); assumption.
Qed.
Lemma ginv_more g d u : ginv a iskey g -> ginv a iskey (mkG d (u :: used g) (asg g)).
Proof. intros [h1 h2 h3]. split; cbn; [exact h1|intros x k hx hk; right; apply (h2 x); assumption|exact h3]. Qed.

Definition conflict_at (g : gstate) (x : Z) (nz : bool) : bool :=
  match asg g x with Some _ => existsb (fun o => (read (asg g) x =? read (asg g) (fst o)) && negb (Bool.eqb nz (snd o))) all | None => false end.

Lemma transients_ok : forall l s g s' g', incl l all -> ginv a iskey g -> from_rnd s -> transients rnd fuel all l s g = Generated (s', g') ->
  ginv a iskey g' /\ grows g g' /\ from_rnd s' /\ (forall k, s k <> None -> s' k <> None) /\
  (forall x nz, In (x, nz) l -> exists k, asg g' x = Some k /\ (nz = true -> s' k <> None) /\
     (a x = Some k -> forall y nz', In (y, nz') all -> a y = Some k -> nz' = nz)) /\
  (forall k, s' k <> None -> s k <> None \/ exists x, In (x, true) l /\ asg g' x = Some k).
Proof.
  induction l as [|[x nz] l IH]; intros s g s' g' hin hi hr; cbn [transients].
  - intros h. inversion h; subst. split; [exact hi|]. split; [apply grows_refl|]. split; [exact hr|]. split; [auto|]. split; [intros ? ? []|auto].
  - fold (conflict_at g x nz). destruct (conflict_at g x nz) eqn:ec; [discriminate|].
    assert (hx : iskey x) by (apply (in_map fst) in hin || idtac; apply (in_map fst all (x, nz)); apply hin; left; reflexivity).
    set (mk := match asg g x with Some k => Generated (k, _) | None => getUnusedKey rnd fuel g end).
    destruct mk as [[key g1]| | | |] eqn:em; cbn [gbind]; try discriminate.
    assert (hk : ginv a iskey (mkG (drawn g1) (used g1) (put (asg g1) x key)) /\ grows g (mkG (drawn g1) (used g1) (put (asg g1) x key)) /\ asg g1 = asg g).
    { unfold mk in em. destruct (asg g x) as [k0|] eqn:ex.
      - inversion em; subst. cbn. split; [apply (ginv_put (mkG (drawn g) (key :: used g) (asg g))); [apply ginv_more; exact hi|exact ex]|]. split; [|reflexivity].
        split; cbn; [intros y v hy; unfold put; destruct (Z.eqb_spec y x); [subst; congruence|exact hy]|apply incl_tl, incl_refl].
      - destruct (unused_ok _ _ _ _ _ em) as (h1 & h2 & h3). rewrite h2, h3. split; [apply ginv_fresh; assumption|]. split; [|reflexivity].
        split; cbn; [intros y v hy; unfold put; destruct (Z.eqb_spec y x); [subst; congruence|exact hy]|apply incl_tl, incl_refl]. }
    destruct hk as (hi1 & hg1 & ha1).
    set (sg := if nz then _ else _). 
    assert (hsg : exists s1 d, sg = (s1, mkG d (used g1) (asg g1)) /\ from_rnd s1 /\ (forall k, s k <> None -> s1 k <> None) /\ (nz = true -> s1 key <> None) /\ (forall k, s1 k <> None -> s k <> None \/ nz = true /\ k = key)).
    { unfold sg. destruct nz; cbn [draw].
      - eexists _, _. split; [reflexivity|]. split; [|split; [|split]].
        + intros k v. unfold put. destruct (Z.eqb_spec k key); [intros hh; inversion hh; eauto|apply hr].
        + intros k hk. unfold put. destruct (k =? key); [discriminate|exact hk].
        + intros _. rewrite put_eq. discriminate.
        + intros k. unfold put. destruct (Z.eqb_spec k key); [intros _; right; auto|intros hh; left; exact hh].
      - exists s, (drawn g1). destruct g1; cbn. repeat split; auto; discriminate. }
    destruct hsg as (s1 & d & es & hr1 & hm1 & hz1 & hs1). rewrite es. cbn [drawn used asg]. intros h.
    assert (hi2 : ginv a iskey (mkG d (used g1) (put (asg g1) x key))) by (destruct hi1 as [q1 q2 q3]; split; cbn in *; assumption).
    destruct (IH _ _ _ _ (fun p hp => hin p (or_intror hp)) hi2 hr1 h) as (hi3 & hg3 & hr3 & hm3 & hall & hsup).
    assert (hkx : asg g' x = Some key) by (apply hg3; cbn; apply put_eq).
    split; [exact hi3|]. split; [eapply grows_trans; [exact hg1|exact hg3]|]. split; [exact hr3|]. split; [auto|]. split.
    + intros y nzy [e|hy]; [|apply hall; exact hy]. inversion e; subst y nzy. exists key. split; [exact hkx|]. split; [intros e2; apply hm3, hz1, e2|].
      intros hax y nz' hy hay. unfold conflict_at in ec. pose proof (gi_ext _ _ _ hi _ _ hax) as gx. pose proof (gi_ext _ _ _ hi _ _ hay) as gy. rewrite gx in ec.
      destruct (Bool.eqb nz nz') eqn:eb; [apply eqb_prop in eb; auto|]. exfalso.
      assert (existsb (fun o => (read (asg g) x =? read (asg g) (fst o)) && negb (Bool.eqb nz (snd o))) all = true); [|congruence].
      apply existsb_exists. exists (y, nz'). split; [exact hy|]. cbn. unfold read. rewrite gx, gy, Z.eqb_refl, eb. reflexivity.
    + intros k hk. destruct (hsup k hk) as [q|(y & q1 & q2)]; [|right; exists y; split; [right; exact q1|exact q2]].
      destruct (hs1 k q) as [q1|[q1 q2]]; [left; exact q1|]. right. exists x. subst. split; [left; reflexivity|exact hkx].
Qed.

Lemma transients_err : forall l done s g, all = done ++ l -> ginv a iskey g -> (forall x, ~ In x (map fst done) -> asg g x = a x) ->
  match transients rnd fuel all l s g with
  | Generated _ | Running => True
  | ErrUnsatisfiable => exists x y nz, In (x, nz) all /\ In (y, negb nz) all /\ ((exists k, a x = Some k /\ a y = Some k) \/ a x = Some 0 /\ a y = None)
  | _ => False
  end.
Proof.
  induction l as [|[x nz] l IH]; intros done s g hall hi ho; cbn [transients]; [exact Logic.I|].
  fold (conflict_at g x nz).
  assert (hinx : In (x, nz) all) by (rewrite hall; apply in_or_app; right; left; reflexivity).
  assert (hx : iskey x) by (apply (in_map fst all (x, nz)); exact hinx).
  assert (hxd : ~ In x (map fst done)).
  { pose proof hnd as hn. rewrite hall, map_app in hn. cbn in hn. intros h. apply NoDup_remove_2 in hn. apply hn, in_or_app. left. exact h. }
  destruct (conflict_at g x nz) eqn:ec.
  { unfold conflict_at in ec. destruct (asg g x) as [k|] eqn:ex; [|discriminate]. apply existsb_exists in ec. destruct ec as ([y nz'] & h1 & h2). cbn in h2. apply andb_true_iff in h2. destruct h2 as [h2 h3].
    assert (nz' = negb nz) by (clear -h3; destruct nz, nz'; first [reflexivity|discriminate h3]). subst nz'.
    exists x, y, nz. split; [exact hinx|]. split; [exact h1|].
    rewrite (ho x hxd) in ex. pose proof (gi_ext _ _ _ hi _ _ ex) as gx. apply Z.eqb_eq in h2. unfold read in h2. rewrite gx in h2.
    destruct (asg g y) as [k'|] eqn:ey.
    - subst k'. left. exists k. split; [exact ex|]. assert (hne : x <> y) by (intros ->; pose proof (fun_all _ _ _ hinx h1); destruct nz; discriminate).
      apply (gi_inj _ _ _ hi x y k hx (in_map fst all _ h1) hne gx ey).
    - right. subst k. split; [exact ex|]. destruct (a y) as [w|] eqn:ea; [|reflexivity]. apply (gi_ext _ _ _ hi) in ea. congruence. }
  set (mk := match asg g x with Some k => Generated (k, _) | None => getUnusedKey rnd fuel g end).
  destruct mk as [[key g1]| | | |] eqn:em; cbn [gbind]; try exact Logic.I.
  2-4: unfold mk in em; destruct (asg g x); [discriminate|]; pose proof (unused_err rnd fuel g) as hu; rewrite em in hu; contradiction.
  assert (hk : ginv a iskey (mkG (drawn g1) (used g1) (put (asg g1) x key)) /\ asg g1 = asg g).
  { unfold mk in em. destruct (asg g x) as [k0|] eqn:ex.
    - inversion em; subst. cbn. split; [apply (ginv_put (mkG (drawn g) (key :: used g) (asg g))); [apply ginv_more; exact hi|exact ex]|reflexivity].
    - destruct (unused_ok _ _ _ _ _ em) as (h1 & h2 & h3). rewrite h2, h3. split; [apply ginv_fresh; assumption|reflexivity]. }
  destruct hk as (hi1 & ha1).
  assert (hgo : forall s1 d, match transients rnd fuel all l s1 (mkG d (used g1) (put (asg g1) x key)) with
    | Generated _ | Running => True
    | ErrUnsatisfiable => exists x y nz, In (x, nz) all /\ In (y, negb nz) all /\ ((exists k, a x = Some k /\ a y = Some k) \/ a x = Some 0 /\ a y = None)
    | _ => False end).
  { intros s1 d. apply (IH (done ++ [(x, nz)])).
    - rewrite hall, <- app_assoc. reflexivity.
    - destruct hi1 as [q1 q2 q3]. split; cbn in *; assumption.
    - intros y hy. rewrite map_app in hy. cbn. assert (y <> x) by (intros ->; apply hy, in_or_app; right; left; reflexivity). rewrite put_neq by assumption. rewrite ha1. apply ho. intros h. apply hy, in_or_app. left. exact h. }
  destruct nz; cbn [draw]; cbn [drawn used asg]; apply hgo.
Qed.

Lemma transient_extras_ok : forall n i s g s', transient_extras rnd fuel n i s g = Generated s' -> forall k, In k (used g) -> s' k = s k.
Proof.
  induction n as [|n IH]; intros i s g s'; cbn [transient_extras draw]; [discriminate|].
  destruct (i <? _); [|intros h; inversion h; subst; auto].
  destruct (getUnusedKey rnd fuel _) as [[key g1]| | | |] eqn:e; cbn [gbind]; try discriminate. destruct (unused_ok _ _ _ _ _ e) as (h1 & h2 & h3). cbn [used asg] in *.
  intros h k hk. rewrite (IH _ _ _ _ h k) by (cbn; rewrite h2; right; exact hk). apply put_neq. intros ->. contradiction.
Qed.
Lemma transient_extras_err : forall n i s g, match transient_extras rnd fuel n i s g with Generated _ | Running => True | _ => False end.
Proof.
  induction n as [|n IH]; intros i s g; cbn [transient_extras draw]; [exact Logic.I|]. destruct (i <? _); [|exact Logic.I].
  match goal with |- context [getUnusedKey rnd fuel ?x] => pose proof (unused_err rnd fuel x) as hu; destruct (getUnusedKey rnd fuel x) as [[key g1]| | | |] end; cbn [gbind]; try tauto. apply IH.
Qed.

End Gen.

(** The generator made by requests *)
Lemma lookup_in l k b : lookup l k = Some b -> In (k, b) l.
Proof. unfold lookup. destruct (find _ l) as [[k' b']|] eqn:e; [|discriminate]. intros h. inversion h; subst. apply find_some in e. cbn in e. destruct e as [h1 h2]. apply Z.eqb_eq in h2. subst. exact h1. Qed.
Lemma lookup_none l k : lookup l k = None -> ~ In k (map fst l).
Proof.
  unfold lookup. destruct (find _ l) as [[k' b']|] eqn:e; [discriminate|]. intros _ h. apply in_map_iff in h. destruct h as ([k' b'] & e1 & h). cbn in e1. subst.
  pose proof (find_none _ _ e _ h) as hh. cbn in hh. rewrite Z.eqb_refl in hh. discriminate.
Qed.

Lemma transient_lists qs : let t := transient_generator qs in
  NoDup (map fst (t_constraints t)) /\
  (forall x (nz : bool), In (x, nz) (t_constraints t) -> In (if nz then NonZero x else Zero x) qs) /\
  (if t_unsat t then exists x, In (NonZero x) qs /\ In (Zero x) qs else forall x (nz : bool), In (if nz then NonZero x else Zero x) qs -> In (x, nz) (t_constraints t)).
Proof.
  induction qs as [|q qs IH] using rev_ind; cbv zeta in *.
  - cbn. split; [constructor|]. split; [tauto|]. intros x [|] [].
  - unfold transient_generator. rewrite fold_left_app. cbn [fold_left]. fold (transient_generator qs). set (t := transient_generator qs) in *. destruct IH as (A & B & C).
    assert (hq : exists nz k, transient_request_call t q = bind_transient nz k t /\ q = (if nz then NonZero k else Zero k)) by (destruct q as [k|k]; [exists true, k|exists false, k]; auto).
    destruct hq as (nz & k & -> & ->). unfold bind_transient. destruct (lookup (t_constraints t) k) as [v|] eqn:el.
    + pose proof (lookup_in _ _ _ el) as hl. destruct (Bool.eqb v nz) eqn:ev.
      * apply eqb_prop in ev. subst v. split; [exact A|]. split; [intros x nz' h; apply in_or_app; left; apply B; exact h|].
        destruct (t_unsat t); [destruct C as (x & c1 & c2); exists x; split; apply in_or_app; left; assumption|].
        intros x nz' h. apply in_app_or in h. destruct h as [h|[h|[]]]; [apply C; exact h|]. destruct nz, nz'; inversion h; subst; exact hl.
      * cbn [t_constraints t_unsat]. split; [exact A|]. split; [intros x nz' h; apply in_or_app; left; apply B; exact h|].
        exists k. apply B in hl. split; apply in_or_app; destruct v, nz; cbn in *; try discriminate; try (left; exact hl); right; left; reflexivity.
    + pose proof (lookup_none _ _ el) as hl. cbn [t_constraints t_unsat]. rewrite map_app. cbn. split; [apply nodup_snoc'; assumption|]. split.
      * intros x nz' h. apply in_app_or in h. apply in_or_app. destruct h as [h|[h|[]]]; [left; apply B; exact h|]. inversion h; subst. right. left. reflexivity.
      * destruct (t_unsat t); [destruct C as (x & c1 & c2); exists x; split; apply in_or_app; left; assumption|].
        intros x nz' h. apply in_app_or in h. apply in_or_app. destruct h as [h|[h|[]]]; [left; apply C; exact h|]. right. left. destruct nz, nz'; inversion h; subst; reflexivity.
Qed.

Section Top.
Variables (rnd : nat -> Z) (a : Assignment) (qs : list transient_request) (order : list (Z * bool)).
Hypothesis horder : Permutation order (t_constraints (transient_generator qs)).
Let t := transient_generator qs.
Let iskey (x : Z) : Prop := In x (map fst order).
Let g0 := mkG 0 (bound_keys a (map fst order)) a.

Lemma order_nodup : NoDup (map fst order).
Proof. apply (Permutation_NoDup (l := map fst (t_constraints t))); [apply Permutation_map; symmetry; exact horder|apply transient_lists]. Qed.
Lemma order_in x nz : In (x, nz) order <-> In (x, nz) (t_constraints t).
Proof. split; apply Permutation_in; [|symmetry]; exact horder. Qed.
Lemma ginv_start : ginv a iskey g0.
Proof. split; cbn; [intros x v h; exact h| |auto]. intros x k h1 h2. apply (bound_keys_in a _ x); assumption. Qed.

Theorem transient_sound fuel st b : TransientGenerate rnd fuel order a t = Generated (st, b) ->
  extends a b /\ forall q, In q qs -> (forall n, rnd n <> 0) \/ (exists x, q = Zero x) -> transient_fulfils b st q.
Proof.
  unfold TransientGenerate. destruct (transient_lists qs) as (A & B & C). fold t in A, B, C. destruct (t_unsat t); [discriminate|].
  change (mkG 0 (bound_keys a (map fst order)) a) with g0.
  destruct (transients rnd fuel order order _ g0) as [[s1 g1]| | | |] eqn:e1; cbn [gbind]; try discriminate.
  assert (hr0 : from_rnd rnd (fun _ => None)) by (intros k v h; discriminate h).
  destruct (transients_ok rnd fuel a order order _ _ _ _ (incl_refl _) ginv_start hr0 e1) as (hi & hg & hr & _ & hall & hsup).
  destruct (transient_extras rnd fuel fuel 0 s1 g1) as [s2| | | |] eqn:e2; cbn [gbind]; try discriminate. intros h. inversion h; subst.
  pose proof (transient_extras_ok rnd fuel fuel 0 s1 g1 st e2) as hx. split; [apply hi|].
  intros q hq hz. destruct q as [x|x]; cbn [transient_fulfils].
  - pose proof (proj2 (order_in x true) (C x true hq)) as hin. destruct (hall x true hin) as (k & q1 & q2 & _). exists k. split; [exact q1|].
    unfold read. rewrite hx by (apply (gi_used _ _ _ hi x); [apply (in_map fst order _ hin)|exact q1]).
    specialize (q2 eq_refl). destruct (s1 k) as [v|] eqn:ek; [|congruence]. destruct (hr k v ek) as (n & ->). destruct hz as [hz|(y & hz)]; [apply hz|discriminate].
  - pose proof (proj2 (order_in x false) (C x false hq)) as hin. destruct (hall x false hin) as (k & q1 & _ & q3). exists k. split; [exact q1|].
    unfold read. rewrite hx by (apply (gi_used _ _ _ hi x); [apply (in_map fst order _ hin)|exact q1]).
    destruct (s1 k) as [v|] eqn:ek; [exfalso|reflexivity]. destruct (hsup k) as [hn|(y & y1 & y2)]; [congruence|congruence|].
    destruct (Z.eq_dec y x) as [->|hne]; [pose proof (fun_all order order_nodup _ _ _ hin y1); discriminate|].
    destruct (gi_inj _ _ _ hi y x k (in_map fst order _ y1) (in_map fst order _ hin) hne y2 q1) as [r1 r2].
    pose proof (q3 r2 y true y1 r1). discriminate.
Qed.

Theorem transient_error fuel :
  match TransientGenerate rnd fuel order a t with
  | Generated _ | Running => True
  | ErrUnsatisfiable => transient_impossible a qs \/ transient_confused a qs
  | ErrUnboundVariable | Panics => False
  end.
Proof.
  unfold TransientGenerate. destruct (transient_lists qs) as (A & B & C). fold t in A, B, C. destruct (t_unsat t).
  { left. destruct C as (x & c1 & c2). intros b st _ hf. rewrite Forall_forall in hf. apply hf in c1, c2. cbn in c1, c2. destruct c1 as (k & c1 & c3). destruct c2 as (k' & c2 & c4). congruence. }
  change (mkG 0 (bound_keys a (map fst order)) a) with g0.
  pose proof (transients_err rnd fuel a order order_nodup order [] (fun _ => None) g0 eq_refl ginv_start (fun x _ => eq_refl)) as he.
  destruct (transients rnd fuel order order (fun _ => None) g0) as [[s1 g1]| | | |] eqn:e1; cbn [gbind]; try tauto.
  - pose proof (transient_extras_err rnd fuel order fuel 0 s1 g1) as hx. destruct (transient_extras rnd fuel fuel 0 s1 g1); cbn [gbind]; tauto.
  - destruct he as (x & y & nz & h1 & h2 & h3). apply order_in, B in h1, h2. destruct h3 as [(k & h3 & h4)|[h3 h4]].
    + left. intros b st hext hf. rewrite Forall_forall in hf. apply hf in h1, h2. apply hext in h3, h4.
      destruct nz; cbn in h1, h2; destruct h1 as (k1 & r1 & r2); destruct h2 as (k2 & r3 & r4); assert (k1 = k) by congruence; assert (k2 = k) by congruence; congruence.
    + right. exists x, y. split; [exact h3|]. split; [exact h4|]. destruct nz; cbn in h1, h2; auto.
Qed.

Lemma settles_eventually {A} (P : A -> Prop) m m' F : (forall f, (F <= f)%nat -> m f = m' f) -> settles P m -> settles P m'.
Proof. intros he (F2 & r & h1 & h2). exists (Nat.max F F2), r. split; [intros f hf; rewrite <- he by lia; apply h1; lia|exact h2]. Qed.

Hypothesis hf : fair rnd.

Lemma transients_settle all : forall l s g, len g + zlen l < 2 ^ 63 -> settles (fun sg => len (snd sg) <= len g + zlen l) (fun f => transients rnd f all l s g).
Proof.
  induction l as [|[x nz] l IH]; intros s g hl; cbn [transients]; [apply settles_ret; cbn; lia|].
  assert (hz : zlen ((x, nz) :: l) = zlen l + 1) by (unfold zlen; cbn; lia). rewrite hz in *. assert (0 <= zlen l) by (unfold zlen; lia).
  destruct (match asg g x with Some _ => _ | None => false end); [apply settles_err|].
  apply (settles_bind (fun kg => len (snd kg) <= len g + 1)).
  - destruct (asg g x); [apply settles_ret; unfold len, zlen; cbn; lia|]. eapply settles_weaken; [|apply (unused_settles rnd hf); lia]. intros [k g1]. cbn. lia.
  - intros [key g1] h1. cbn [snd] in h1. destruct nz; cbn [draw]; (eapply settles_weaken; [|apply IH; unfold len in *; cbn; lia]); intros r hr; unfold len in *; cbn in *; lia.
Qed.

Lemma transient_extras_settle : forall k i s g c, 10 - i <= Z.of_nat k -> len g + Z.of_nat k < 2 ^ 64 -> settles (fun _ => True) (fun f => transient_extras rnd f (f - c) i s g).
Proof.
  induction k as [|k IH]; intros i s g c hk hl.
  - apply (settles_eventually _ (fun _ => Generated s) _ (S c)); [|apply settles_ret; exact Logic.I]. intros f hff. destruct (f - c)%nat as [|n] eqn:e; [lia|]. cbn [transient_extras draw].
    pose proof (Z.mod_pos_bound (rnd (drawn g)) 10 ltac:(lia)). destruct (Z.ltb_spec i (rnd (drawn g) mod 10)); [lia|reflexivity].
  - destruct (i <? rnd (drawn g) mod 10) eqn:ei.
    + apply (settles_eventually _ (fun f => gbind (getUnusedKey rnd f (snd (draw rnd g))) (fun kg => let '(v, g2) := draw rnd (snd kg) in transient_extras rnd f (f - S c) (i + 1) (put s (fst kg) v) g2)) _ (S c)).
      * intros f hff. replace (f - c)%nat with (S (f - S c)) by lia. cbn [transient_extras draw snd]. rewrite ei.
        destruct (getUnusedKey rnd f _) as [[key g1]| | | |]; reflexivity.
      * eapply settles_bind; [apply (unused_settles rnd hf); unfold len in *; cbn; lia|]. intros [key g1] h1. cbn [snd fst draw] in *. apply IH; [lia|]. unfold len in *. cbn in *. lia.
    + apply (settles_eventually _ (fun _ => Generated s) _ (S c)); [|apply settles_ret; exact Logic.I]. intros f hff. destruct (f - c)%nat as [|n] eqn:e; [lia|]. cbn [transient_extras draw]. rewrite ei. reflexivity.
Qed.

Theorem transient_terminates : zlen qs < 2 ^ 61 -> exists F, forall f, (F <= f)%nat -> TransientGenerate rnd f order a t <> Running.
Proof.
  intros hq. cut (settles (fun _ => True) (fun f => TransientGenerate rnd f order a t)).
  { intros (F & r & h1 & h2). exists F. intros f hff. rewrite h1 by exact hff. destruct r; [discriminate|discriminate|discriminate|discriminate|contradiction]. }
  unfold TransientGenerate. destruct (t_unsat t); [apply settles_err|].
  assert (hlo : zlen order <= zlen qs).
  { unfold zlen at 1. rewrite (Permutation_length horder). clear. induction qs as [|q l IH] using rev_ind; [cbn; lia|]. unfold transient_generator. rewrite fold_left_app. cbn [fold_left]. fold (transient_generator l).
    unfold zlen in *. rewrite app_length. destruct q as [k|k]; cbn [transient_request_call]; unfold BindToNonZero, BindToZero, bind_transient; destruct (lookup _ k) as [v|]; [destruct (Bool.eqb v _)| |destruct (Bool.eqb v _)|]; cbn [t_constraints]; rewrite ?app_length; cbn [length]; lia. }
  change (mkG 0 (bound_keys a (map fst order)) a) with g0.
  assert (h0 : len g0 <= zlen order) by (unfold len, g0; cbn [used]; pose proof (bound_keys_len a (map fst order)) as hb; rewrite map_len in hb; exact hb).
  eapply settles_bind; [apply transients_settle; lia|]. intros [s1 g1] h1. cbn [snd] in h1.
  apply (settles_bind (fun _ => True)).
  - apply (settles_ext _ (fun f => transient_extras rnd f (f - 0) 0 s1 g1)); [intros f; rewrite Nat.sub_0_r; reflexivity|]. apply (transient_extras_settle 10); [lia|lia].
  - intros x _. apply settles_ret. exact Logic.I.
Qed.

End Top.
