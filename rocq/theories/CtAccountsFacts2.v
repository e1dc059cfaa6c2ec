(** Proofs about the generator of accounts: the theorems. *)
From Verif Require Import Base Host GoStorage CtSolve CtGen SpecGen CtStorageFacts CtGenTerm CtAccounts SpecAccounts CtAccountsFacts.
From Coq Require Import Lia ZArith List Bool Permutation.
Import ListNotations.
Open Scope Z_scope.

Lemma sized_nonempty ch : sized ch -> ch_own_code ch <> [].
Proof. unfold sized. intros [h _] e. rewrite e in h. discriminate h. Qed.

Lemma lowers_pos ch fuel : forall l K m g, (forall A v, m A = Some v -> 0 < v) ->
  match lowers ch fuel l K m g with Generated (_, m', _) => forall A v, m' A = Some v -> 0 < v | _ => True end.
Proof.
  induction l as [|[x v] l IH]; intros K m g h; cbn [lowers]; [exact h|].
  destruct (getBoundOrBindNewAddress ch fuel x g) as [[A g1]| | | |]; cbn [gbind]; try exact Logic.I.
  destruct (Z.ltb_spec (read m A) v) as [hlt|]; [|apply IH; exact h]. apply IH. intros B w. unfold put. destruct (B =? A); [|apply h].
  intros e. inversion e; subst. unfold read in hlt. destruct (m A) as [u|] eqn:em; [apply h in em; lia|lia].
Qed.

Lemma zlen_nonneg {A} (l : list A) : 0 <= zlen l. Proof. unfold zlen; lia. Qed.
Lemma fold_nonneg ch : forall E N A, 0 <= Balance (GetAccount (fold_left (make_nonempty ch) N (fold_left make_empty E NewAccountsBuilder)) A).
Proof.
  assert (forall N s, (forall A, 0 <= Balance (GetAccount s A)) -> forall A, 0 <= Balance (GetAccount (fold_left (make_nonempty ch) N s) A)) as hN.
  { induction N as [|x N IH]; intros s h; cbn [fold_left]; [exact h|]. apply IH. intros A. unfold make_nonempty.
    destruct (_ =? 0); [|destruct (_ =? 1)]; unfold SetCode, SetBalance; rewrite ?get_put; destruct (A =? x) eqn:e; cbn [Balance accounts]; try apply h; try lia.
    all: try (unfold GetAccount; cbn; unfold put; rewrite ?Z.eqb_refl, ?e; cbn; lia).
    all: cbn [warm_accounts]; rewrite get_put, e; apply h. }
  intros E N. apply hN. intros A. rewrite empties_get. destruct (has E A); cbn; lia.
Qed.

Section Top.
Variable ch : choices.
Variable a : Assignment.
Variable own : Z.
Variable qs : list account_request.
Hypothesis ap : apart ch a.
Hypothesis hok : Forall account_request_ok qs.
Hypothesis hs : sized ch.

Let G := accounts_generator qs.

Lemma request_word : (forall x v, In (AtLeast x v) qs -> is_word v) /\ (forall x v, In (AtMost x v) qs -> is_word v).
Proof. rewrite Forall_forall in hok. split; intros x v h; exact (hok _ h). Qed.

Lemma possible_at q : accounts_possible a qs -> In q qs -> exists b s, extends a b /\ Forall (account_fulfils b s) qs /\ account_fulfils b s q.
Proof. intros (b & s & h1 & h2) hq. exists b, s. split; [exact h1|]. split; [exact h2|]. rewrite Forall_forall in h2. apply h2, hq. Qed.

Lemma protected g x A : ainv ch a g -> names (asg g) x A -> In A (used g) \/ exists y, names a y A.
Proof.
  intros (i1 & i2 & _) (v & hv & ->). destruct (a x) as [w|] eqn:e.
  - right. exists x. rewrite (i1 _ _ e) in hv. inversion hv; subst. exists v. auto.
  - left. destruct (i2 _ _ hv e) as (h1 & h2 & _). unfold NewAddress in h1. rewrite <- h1. exact h2.
Qed.

Lemma empty_and_not g x y A : ainv ch a g -> names (asg g) x A -> names (asg g) y A -> In (Empty x) qs -> In (NonEmpty y) qs -> ~ accounts_possible a qs.
Proof.
  intros hi hx hy qx qy (b & s & he & hf). rewrite Forall_forall in hf. destruct (hf _ qx) as (X & h1 & h2 & h3). destruct (hf _ qy) as (Y & h4 & h5). cbn in *.
  rewrite (together ch a g x y A hi hx hy b X Y he h1 h4) in *. tauto.
Qed.

Theorem accounts_generates fuel :
  match AccountsGenerate ch fuel a own G with
  | Generated (s, b) => extends a b /\ zlen (GetCode s own) = 42 /\ Forall (fun q => account_fulfils b s q \/ overlooked a b own qs q) qs
  | ErrUnsatisfiable => ~ accounts_possible a qs
  | Running => True | _ => False
  end.
Proof.
  destruct (accounts_lists qs) as (l1 & l2 & l3 & l4 & l5 & l6 & nd1 & nd2). fold G in l1, l2, l3, l4, l5, l6, nd1, nd2.
  destruct request_word as [wlo whi].
  unfold AccountsGenerate. set (es := sort warm_Less (ag_empty G)). set (wcs := sort warm_Less (ag_warm G)).
  assert (hes : forall c, In c es <-> In c (ag_empty G)) by (intros c; apply sort_in).
  assert (hwcs : forall c, In c wcs <-> In c (ag_warm G)) by (intros c; apply sort_in).
  assert (nobody : forall x y, warm_conflict (mkWarm x true) (mkWarm y false) = true -> x = y) by (intros x y h; unfold warm_conflict in h; cbn in h; apply andb_true_iff in h; apply Z.eqb_eq, h).
  destruct (neighbours warm_conflict es) eqn:ne.
  { apply neighbours_true in ne. destruct ne as ([x f] & [y f'] & h1 & h2 & h3). unfold warm_conflict in h3. cbn in h3. apply andb_true_iff in h3. destruct h3 as [h3 h4]. apply Z.eqb_eq in h3. subst y.
    apply hes in h1, h2. assert (In (Empty x) qs /\ In (NonEmpty x) qs) as [q1 q2] by (destruct f, f'; try discriminate; split; [apply l1|apply l2|apply l1|apply l2]; assumption).
    intros (b & s & he & hf). rewrite Forall_forall in hf. destruct (hf _ q1) as (X & p1 & p2). destruct (hf _ q2) as (Y & p3 & p4). cbn in *. rewrite (names_fun _ _ _ _ p1 p3) in *. tauto. }
  destruct (neighbours warm_conflict wcs) eqn:nw.
  { apply neighbours_true in nw. destruct nw as ([x f] & [y f'] & h1 & h2 & h3). unfold warm_conflict in h3. cbn in h3. apply andb_true_iff in h3. destruct h3 as [h3 h4]. apply Z.eqb_eq in h3. subst y.
    apply hwcs in h1, h2. assert (In (WarmAt x) qs /\ In (ColdAt x) qs) as [q1 q2] by (destruct f, f'; try discriminate; split; [apply l5|apply l6|apply l5|apply l6]; assumption).
    intros (b & s & he & hf). rewrite Forall_forall in hf. destruct (hf _ q1) as (X & p1 & p2). destruct (hf _ q2) as (Y & p3 & p4). cbn in *. rewrite (names_fun _ _ _ _ p1 p3) in *. congruence. }
  assert (hwc : forall x, In (WarmAt x) qs -> In (ColdAt x) qs -> False).
  { intros x q1 q2. apply (warm_adjacent x wcs); [apply sort_ordered; [exact warm_less_tr|exact warm_less_as|exact warm_less_tr2]|apply sort_nodup; exact nd2|exact nw| |]; apply hwcs; [apply l5|apply l6]; assumption. }
  set (g0 := mkG 0 (own :: map NewAddress (bound_keys a (map wc_key wcs))) a).
  assert (i0 : ainv ch a g0).
  { split; [intros x v h; exact h|]. split; [cbn; intros x v h1 h2; congruence|]. cbn. intros x y A h1 h2. right. auto. }
  pose proof (empties_ok ch fuel a ap es es [] [] g0 i0 (incl_refl _)) as hE.
  specialize (hE ltac:(intros A []) ltac:(intros A [])).
  destruct (empties ch fuel es [] [] g0) as [[[E N] g1]| | | |]; cbn [gbind]; try exact Logic.I; try contradiction.
  2:{ destruct hE as (g' & x & y & A & h1 & h2 & h3 & h4 & h5). apply (empty_and_not g' x y A h1 h4 h5); [apply l1, hes|apply l2, hes]; assumption. }
  destruct hE as (i1 & gr1 & fE & fN & _ & _ & hE & hN & hd). specialize (hd ltac:(intros A [])).
  set (s1 := fold_left (make_nonempty ch) N (fold_left make_empty E NewAccountsBuilder)).
  assert (hs1 : (forall A, In A E -> account_empty (GetAccount s1 A)) /\ (forall A, In A N -> ~ account_empty (GetAccount s1 A)) /\ (forall A, IsWarm s1 A = false)).
  { split; [|split; [|intros A; apply fold_warm]].
    - intros A hA. destruct (nonempties ch N (fold_left make_empty E NewAccountsBuilder) A) as (_ & h & _). unfold s1. rewrite h by (intros c; exact (hd A hA c)).
      rewrite empties_get, (proj2 (has_in E A) hA). split; reflexivity.
    - intros A hA. destruct (nonempties ch N (fold_left make_empty E NewAccountsBuilder) A) as (h & _ & _). apply h, hA. }
  destruct hs1 as (s1E & s1N & s1w).
  pose proof (warms_ok' ch fuel a ap wcs s1 g1 i1) as hW.
  destruct (account_warms ch fuel wcs s1 g1) as [[s2 g2]| | | |]; cbn [gbind]; try exact Logic.I; try contradiction.
  destruct hW as (i2 & gr2 & s2a & s2w & hW).
  pose proof (lowers_ok ch fuel a ap (ag_min G) ltac:(intros x v h; apply l3, wlo in h; unfold is_word in h; lia) (ag_min G) [] (fun _ => None) g2 i2 (incl_refl _)) as hL.
  specialize (hL ltac:(split; [intros A v h; discriminate|intros A []])).
  destruct (lowers ch fuel (ag_min G) [] (fun _ => None) g2) as [[[lk lo] g3]| | | |] eqn:eL; cbn [gbind]; try exact Logic.I; try contradiction.
  destruct hL as (i3 & gr3 & [lo1 lo2] & _ & hL).
  pose proof (uppers_ok ch fuel a ap (ag_max G) (ag_max G) [] (fun _ => None) g3 i3 (incl_refl _)) as hU.
  specialize (hU ltac:(split; [intros A v h; discriminate|intros A []])).
  destruct (uppers ch fuel (ag_max G) [] (fun _ => None) g3) as [[[uk hi] g4]| | | |]; cbn [gbind]; try exact Logic.I; try contradiction.
  destruct hU as (i4 & gr4 & [hi1 hi2] & _ & hU).
  assert (gr34 : agrow g2 g4) by (eapply agrow_trans; eassumption).
  assert (gr24 : agrow g1 g4) by (eapply agrow_trans; eassumption).
  pose proof (balances_ok ch lo (fold_left cap E hi)) as hB.
  assert (wl : forall A v, lo A = Some v -> is_word v) by (intros A v h; apply lo1 in h; destruct h as (_ & x & h & _); apply (wlo x), l3, h).
  assert (wu : forall A v, fold_left cap E hi A = Some v -> is_word v).
  { intros A v. rewrite cap_get. destruct (has E A); [intros h; inversion h; unfold is_word; lia|]. intros h; apply hi1 in h; destruct h as (_ & x & h & _); apply (whi x), l4, h. }
  specialize (hB wl wu (lk ++ uk ++ E) s2). destruct (balances ch (lk ++ uk ++ E) lo (fold_left cap E hi) s2) as [s3| | | |]; cbn [gbind]; try exact Logic.I; try contradiction.
  2:{ (* the bounds contradict each other *)
    destruct hB as (A & _ & hA). unfold lower_of, upper_of in hA. destruct (lo A) as [v|] eqn:elo.
    2:{ destruct (fold_left cap E hi A) as [u|] eqn:eu; [apply wu in eu; unfold is_word in eu; lia|lia]. }
    destruct (lo1 _ _ elo) as (_ & x & hx & nx). apply l3 in hx. pose proof (names_mono _ _ _ _ (proj1 gr4) nx) as nx4.
    destruct (fold_left cap E hi A) as [u|] eqn:eu; [|apply wl in elo; unfold is_word in elo; lia].
    rewrite cap_get in eu. destruct (has E A) eqn:eE.
    - inversion eu; subst u. apply has_in in eE. destruct (fE _ eE) as (y & hy & ny). apply hes, l1 in hy. pose proof (names_mono _ _ _ _ (proj1 gr24) ny) as ny4.
      intros (b & s & he & hf). rewrite Forall_forall in hf. destruct (hf _ hx) as (X & p1 & p2). destruct (hf _ hy) as (Y & p3 & p4 & p5). cbn in *.
      rewrite (together ch a g4 x y A i4 nx4 ny4 b X Y he p1 p3) in *. lia.
    - destruct (hi1 _ _ eu) as (_ & y & hy & ny). apply l4 in hy.
      intros (b & s & he & hf). rewrite Forall_forall in hf. destruct (hf _ hx) as (X & p1 & p2). destruct (hf _ hy) as (Y & p3 & p4). cbn in *.
      rewrite (together ch a g4 x y A i4 nx4 ny b X Y he p1 p3) in *. lia. }
  destruct hB as (b1 & b2 & b3 & b4 & b5 & b6).
  pose proof (extras_ok' ch fuel a ap (Z.to_nat (ch_extra_count ch mod 5)) 0 s3 g4) as hX.
  destruct (account_extras ch fuel (Z.to_nat (ch_extra_count ch mod 5)) 0 s3 g4) as [s4| | | |]; cbn [gbind]; try exact Logic.I; try contradiction.
  set (s5 := if ExistsAccount s4 own then s4 else SetBalance own (ch_own_balance ch) s4). set (s6 := SetCode own (ch_own_code ch) s5). set (b := asg g4).
  split; [apply i4|].
  assert (code_own : GetCode s6 own = ch_own_code ch) by (unfold s6, GetCode, SetCode; rewrite get_put, Z.eqb_refl; reflexivity).
  split; [rewrite code_own; exact (proj1 hs)|].
  (* what is known of the account of a variable *)
  assert (acc : forall x A, names b x A -> (A <> own -> GetAccount s6 A = GetAccount s3 A) /\ (ExistsAccount s3 A = true -> GetBalance s6 A = GetBalance s3 A) /\ IsWarm s6 A = IsWarm s2 A).
  { intros x A hA. destruct (hX A (protected g4 x A i4 hA)) as (e1 & e2).
    assert (e3 : GetAccount s4 A = GetAccount s3 A) by (unfold GetAccount; rewrite e1; reflexivity).
    split; [|split].
    - intros hn. unfold s6, SetCode. rewrite get_put, (proj2 (Z.eqb_neq _ _) hn). unfold s5. destruct (ExistsAccount s4 own); [exact e3|]. unfold SetBalance. rewrite get_put, (proj2 (Z.eqb_neq _ _) hn). exact e3.
    - intros hex. unfold GetBalance, s6, SetCode. rewrite get_put. assert (e4 : Balance (GetAccount s5 A) = Balance (GetAccount s3 A)).
      { unfold s5. destruct (ExistsAccount s4 own) eqn:ee; [rewrite e3; reflexivity|]. unfold SetBalance. rewrite get_put. destruct (Z.eqb_spec A own) as [eA|_]; [|rewrite e3; reflexivity].
        exfalso. unfold ExistsAccount in ee, hex. rewrite eA in e1, hex. rewrite e1 in ee. rewrite ee in hex. discriminate. }
      destruct (Z.eqb_spec A own) as [->|_]; [cbn [Balance]; exact e4|exact e4].
    - unfold IsWarm in *. assert (warm_accounts s6 A = warm_accounts s4 A) as e5 by (unfold s6, s5; destruct (ExistsAccount s4 own); reflexivity). rewrite e5, e2, b5. reflexivity. }
  assert (pos3 : forall A, 0 <= GetBalance s3 A).
  { intros A. destruct (in_dec Z.eq_dec A (lk ++ uk ++ E)) as [hk|hk].
    - specialize (b1 A hk). unfold lower_of in b1. destruct (lo A) as [w|] eqn:el; [apply wl in el; unfold is_word in el; lia|lia].
    - rewrite (b2 A hk). unfold GetBalance, GetAccount. rewrite s2a. apply (fold_nonneg ch E N A). }
  assert (accpos : forall x A, names b x A -> 0 <= GetBalance s6 A).
  { intros x A hA. destruct (acc x A hA) as (c1 & c2 & _). destruct (ExistsAccount s3 A) eqn:ee; [rewrite c2 by reflexivity; apply pos3|].
    destruct (Z.eq_dec A own) as [eo|no]; [|unfold GetBalance; rewrite (c1 no); apply pos3].
    destruct (hX A (protected g4 x A i4 hA)) as (e1 & _). unfold GetBalance, s6, SetCode. rewrite get_put, eo, Z.eqb_refl. cbn [Balance]. unfold s5. subst A.
    assert (ExistsAccount s4 own = false) as -> by (unfold ExistsAccount in *; rewrite e1; exact ee). unfold SetBalance. rewrite get_put, Z.eqb_refl. cbn [Balance].
    destruct hs as [_ hw]. unfold is_word in hw. lia. }
  rewrite Forall_forall. intros q hq. destruct q as [x|x|x v|x v|x|x].
  - (* empty *)
    destruct (hE x (proj2 (hes _) (proj2 (l1 x) hq))) as (A & hA & nA). pose proof (names_mono _ _ _ _ (proj1 gr24) nA) as nb. fold b in nb.
    destruct (Z.eq_dec A own) as [eo|no]; [right; cbn; rewrite <- eo; exact nb|left]. exists A. split; [exact nb|].
    destruct (acc x A nb) as (c1 & _ & _). unfold GetBalance, GetCode. rewrite (c1 no).
    assert (hk : In A (lk ++ uk ++ E)) by (rewrite !in_app_iff; auto). specialize (b1 A hk).
    unfold upper_of in b1. rewrite cap_get, (proj2 (has_in E A) hA) in b1. assert (0 <= lower_of lo A) by (unfold lower_of; destruct (lo A) eqn:el; [apply wl in el; unfold is_word in el; lia|lia]).
    specialize (b4 A). unfold GetBalance, GetCode in *. split; [lia|]. rewrite b4. unfold GetAccount at 1. rewrite s2a. fold (GetAccount s1 A). apply (s1E A hA).
  - (* not empty *)
    destruct (hN x (proj2 (hes _) (proj2 (l2 x) hq))) as (A & hA & nA). pose proof (names_mono _ _ _ _ (proj1 gr24) nA) as nb. fold b in nb.
    destruct (acc x A nb) as (c1 & _ & _).
    destruct (Z.eq_dec A own) as [eo|no].
    { left. exists A. split; [exact nb|]. rewrite eo, code_own. intros [_ h]. exact (sized_nonempty ch hs h). }
    assert (hcode : GetCode s6 A = GetCode s1 A).
    { unfold GetCode at 1. rewrite (c1 no). fold (GetCode s3 A). rewrite b4. unfold GetCode, GetAccount. rewrite s2a. reflexivity. }
    assert (hEA : ~ In A E) by (intros c; exact (hd A c hA)).
    destruct (in_dec Z.eq_dec A lk) as [hlk|hlk].
    { (* a positive lower bound *)
      left. exists A. split; [exact nb|]. intros [h _]. unfold GetBalance in h. rewrite (c1 no) in h. fold (GetBalance s3 A) in h.
      assert (hk : In A (lk ++ uk ++ E)) by (rewrite !in_app_iff; auto). specialize (b1 A hk). unfold lower_of in b1.
      destruct (lo A) as [w|] eqn:el; [|exact (lo2 A hlk el)].
      pose proof (lowers_pos ch fuel (ag_min G) [] (fun _ => None) g2 ltac:(intros B u h'; discriminate)) as hp. rewrite eL in hp. specialize (hp A w el). lia. }
    destruct (in_dec Z.eq_dec A uk) as [huk|huk].
    + (* only an upper bound *)
      right. cbn. split; [intros c; apply no; exact (names_fun _ _ _ _ nb c)|]. exists A. split; [exact nb|]. split.
      * destruct (hi A) as [u|] eqn:eh; [|exfalso; exact (hi2 A huk eh)]. destruct (hi1 A u eh) as (_ & y & h1 & h2). exists y, u. split; [exact h2|apply l4; exact h1].
      * intros y v h1 h2. destruct (hL y v (proj2 (l3 y v) h2)) as (B & h3 & h4). pose proof (names_mono _ _ _ _ (proj1 gr4) h3) as h5. rewrite (names_fun _ _ _ _ h5 h1) in h4.
        assert (read lo A = 0) as e0. { unfold read. destruct (lo A) as [w|] eqn:el; [|reflexivity]. exfalso. apply hlk. apply (lo1 A w el). }
        apply wlo in h2. unfold is_word in h2. lia.
    + left. exists A. split; [exact nb|]. assert (hk : ~ In A (lk ++ uk ++ E)) by (rewrite !in_app_iff; tauto).
      intros [h1 h2]. apply (s1N A hA). split; [|rewrite hcode in h2; exact h2].
      unfold GetBalance in h1. rewrite (c1 no) in h1. fold (GetBalance s3 A) in h1. rewrite (b2 A hk) in h1. unfold GetBalance, GetAccount in h1. rewrite s2a in h1. exact h1.
  - (* at least *)
    left. destruct (hL x v (proj2 (l3 x v) hq)) as (A & h3 & h4). pose proof (names_mono _ _ _ _ (proj1 gr4) h3) as nb. exists A. split; [exact nb|].
    destruct (lo A) as [w|] eqn:el.
    + assert (hk : In A (lk ++ uk ++ E)) by (rewrite !in_app_iff; left; apply (lo1 A w el)). destruct (acc x A nb) as (_ & c2 & _). rewrite c2 by (apply b6; left; exact hk).
      specialize (b1 A hk). unfold lower_of in b1. unfold read in h4. rewrite el in *. lia.
    + unfold read in h4. rewrite el in h4. specialize (accpos x A nb). lia.
  - (* at most *)
    left. destruct (hU x v (proj2 (l4 x v) hq)) as (A & u & h3 & h4 & h5). fold b in h3. exists A. split; [exact h3|].
    assert (hk : In A (lk ++ uk ++ E)) by (rewrite !in_app_iff; right; left; apply (hi1 A u h4)). destruct (acc x A h3) as (_ & c2 & _). rewrite c2 by (apply b6; left; exact hk).
    specialize (b1 A hk). unfold upper_of in b1. rewrite cap_get, h4 in b1. destruct (has E A); [|lia]. apply whi in hq. unfold is_word in hq. lia.
  - (* warm *)
    left. destruct (hW (mkWarm x true) (proj2 (hwcs _) (proj2 (l5 x) hq))) as (A & nA & _). cbn [wc_key] in nA. pose proof (names_mono _ _ _ _ (proj1 gr34) nA) as nb. fold b in nb. exists A. split; [exact nb|].
    destruct (acc x A nb) as (_ & _ & ->). apply s2w. right. exists x. split; [apply hwcs, l5, hq|exact nA].
  - (* cold *)
    destruct (hW (mkWarm x false) (proj2 (hwcs _) (proj2 (l6 x) hq))) as (A & nA & _). cbn [wc_key] in nA. pose proof (names_mono _ _ _ _ (proj1 gr34) nA) as nb. fold b in nb.
    destruct (IsWarm s2 A) eqn:ew.
    + right. apply s2w in ew. destruct ew as [ew|(y & h1 & h2)]; [rewrite s1w in ew; discriminate|]. apply hwcs, l5 in h1.
      assert (hyx : y <> x) by (intros ->; exact (hwc x h1 hq)).
      destruct i2 as (_ & _ & i2). destruct (i2 y x A h2 nA) as [e|[h3 h4]]; [contradiction|]. exists A, y. auto.
    + left. exists A. split; [exact nb|]. destruct (acc x A nb) as (_ & _ & ->). exact ew.
Qed.

(** *** Termination *)
Hypothesis hf : fair (fun i => NewAddress (ch_address ch i)).
Lemma bind_settles x g : len g < 2 ^ 64 -> settles (fun vg => len (snd vg) <= len g + 1) (fun f => getBoundOrBindNewAddress ch f x g).
Proof.
  intros hl. unfold getBoundOrBindNewAddress. destruct (asg g x); [apply settles_ret; cbn; lia|]. unfold getUnusedAddress. eapply settles_bind; [apply (unused_settles _ hf); exact hl|].
  intros [k g1] h. cbn [snd] in *. apply settles_ret. unfold len in *. cbn. lia.
Qed.
Lemma empties_settle : forall l E N g, len g + zlen l < 2 ^ 64 -> settles (fun r => len (snd r) <= len g + zlen l) (fun f => empties ch f l E N g).
Proof.
  induction l as [|c l IH]; intros E N g hl; cbn [empties]; [apply settles_ret; cbn; unfold zlen; cbn; lia|].
  assert (hz : zlen (c :: l) = zlen l + 1) by (unfold zlen; cbn [length]; lia). pose proof (zlen_nonneg l).
  eapply settles_bind; [apply bind_settles; lia|]. intros [A g1] h. cbn [snd] in h.
  destruct (wc_warm c); [destruct (has N A)|destruct (has E A)]; try apply settles_err; (eapply settles_weaken; [|apply IH; lia]; cbv beta; intros r hr; lia).
Qed.
Lemma warms_settle' : forall l s g, len g + zlen l < 2 ^ 64 -> settles (fun r => len (snd r) <= len g + zlen l) (fun f => account_warms ch f l s g).
Proof.
  induction l as [|c l IH]; intros s g hl; cbn [account_warms]; [apply settles_ret; cbn; unfold zlen; cbn; lia|].
  assert (hz : zlen (c :: l) = zlen l + 1) by (unfold zlen; cbn [length]; lia). pose proof (zlen_nonneg l).
  eapply settles_bind; [apply bind_settles; lia|]. intros [A g1] h. cbn [snd] in h. eapply settles_weaken; [|apply IH; lia]; cbv beta; intros r hr; lia.
Qed.
Lemma lowers_settle : forall l K m g, len g + zlen l < 2 ^ 64 -> settles (fun r => len (snd r) <= len g + zlen l) (fun f => lowers ch f l K m g).
Proof.
  induction l as [|[x v] l IH]; intros K m g hl; cbn [lowers]; [apply settles_ret; cbn; unfold zlen; cbn; lia|].
  assert (hz : zlen ((x, v) :: l) = zlen l + 1) by (unfold zlen; cbn [length]; lia). pose proof (zlen_nonneg l).
  eapply settles_bind; [apply bind_settles; lia|]. intros [A g1] h. cbn [snd] in h. destruct (_ <? _); (eapply settles_weaken; [|apply IH; lia]; cbv beta; intros r hr; lia).
Qed.
Lemma uppers_settle : forall l K m g, len g + zlen l < 2 ^ 64 -> settles (fun r => len (snd r) <= len g + zlen l) (fun f => uppers ch f l K m g).
Proof.
  induction l as [|[x v] l IH]; intros K m g hl; cbn [uppers]; [apply settles_ret; cbn; unfold zlen; cbn; lia|].
  assert (hz : zlen ((x, v) :: l) = zlen l + 1) by (unfold zlen; cbn [length]; lia). pose proof (zlen_nonneg l).
  eapply settles_bind; [apply bind_settles; lia|]. intros [A g1] h. cbn [snd] in h. destruct (match m A with Some _ => _ | None => _ end); (eapply settles_weaken; [|apply IH; lia]; cbv beta; intros r hr; lia).
Qed.
Lemma balances_settle keys lo hi : forall s, settles (fun _ => True) (fun f => balances ch keys lo hi s).
Proof.
  induction keys as [|x keys IH]; intros s; cbn [balances]; [apply settles_ret; exact Logic.I|]. destruct (_ >? _); [apply settles_err|apply IH].
Qed.
Lemma extras_settle' : forall n i s g, len g + Z.of_nat n < 2 ^ 64 -> settles (fun _ => True) (fun f => account_extras ch f n i s g).
Proof.
  induction n as [|n IH]; intros i s g hl; cbn [account_extras]; [apply settles_ret; exact Logic.I|].
  unfold getUnusedAddress. eapply settles_bind; [apply (unused_settles _ hf); lia|]. intros [k g1] h. cbn [snd] in h. destruct (ch_extra ch i) as [[b c] w]. apply IH. lia.
Qed.
Lemma accounts_len : zlen (ag_empty G) + zlen (ag_warm G) + zlen (ag_min G) + zlen (ag_max G) <= zlen qs.
Proof.
  unfold G. clear. induction qs as [|q l IH] using rev_ind; [cbn; lia|]. unfold accounts_generator in *. rewrite fold_left_app. cbn [fold_left]. set (g := fold_left account_call l NewAccountGenerator) in *.
  assert (hz : forall A (m : list A) c, zlen (m ++ [c]) = zlen m + 1) by (intros; unfold zlen; rewrite app_length; cbn; lia). rewrite hz.
  assert (hf : forall x b m, zlen (append_flag x b m) <= zlen m + 1) by (intros; unfold append_flag; destruct (existsb _ m); [lia|rewrite hz; lia]).
  assert (hb : forall x b m, zlen (append_bound x b m) <= zlen m + 1) by (intros; unfold append_bound; destruct (has_pair m _); [lia|rewrite hz; lia]).
  destruct q as [x|x|x v|x v|x|x]; cbn -[append_flag append_bound]; [specialize (hf x true (ag_empty g))|specialize (hf x false (ag_empty g))|specialize (hb x v (ag_min g))|specialize (hb x v (ag_max g))|specialize (hf x true (ag_warm g))|specialize (hf x false (ag_warm g))]; lia.
Qed.
Theorem accounts_terminate : 2 * zlen qs < 2 ^ 63 -> exists F, forall f, (F <= f)%nat -> AccountsGenerate ch f a own G <> Running.
Proof.
  intros hq. pose proof accounts_len as hl. pose proof (zlen_nonneg (ag_empty G)). pose proof (zlen_nonneg (ag_warm G)). pose proof (zlen_nonneg (ag_min G)). pose proof (zlen_nonneg (ag_max G)).
  assert (hset : settles (fun _ => True) (fun f => AccountsGenerate ch f a own G)).
  { unfold AccountsGenerate. destruct (neighbours warm_conflict (sort warm_Less (ag_empty G))); [apply settles_err|]. destruct (neighbours warm_conflict (sort warm_Less (ag_warm G))); [apply settles_err|].
    set (g0 := mkG 0 _ a).
    assert (h0 : len g0 <= 1 + zlen (ag_warm G)).
    { unfold len, g0. cbn [used]. replace (zlen (own :: map NewAddress (bound_keys a (map wc_key (sort warm_Less (ag_warm G)))))) with (1 + zlen (map NewAddress (bound_keys a (map wc_key (sort warm_Less (ag_warm G)))))) by (unfold zlen; cbn [length]; lia).
      rewrite map_len. pose proof (bound_keys_len a (map wc_key (sort warm_Less (ag_warm G)))) as hb. rewrite map_len, sort_len in hb. lia. }
    eapply settles_bind; [apply empties_settle; rewrite sort_len; lia|]. intros [[E N] g1] h1. cbn [snd] in h1. rewrite sort_len in h1.
    eapply settles_bind; [apply warms_settle'; rewrite sort_len; lia|]. intros [s2 g2] h2. cbn [snd] in h2. rewrite sort_len in h2.
    eapply settles_bind; [apply lowers_settle; lia|]. intros [[lk lo] g3] h3. cbn [snd] in h3.
    eapply settles_bind; [apply uppers_settle; lia|]. intros [[uk hi] g4] h4. cbn [snd] in h4.
    eapply settles_bind; [apply balances_settle|]. intros s3 _.
    pose proof (Z.mod_pos_bound (ch_extra_count ch) 5 ltac:(lia)).
    eapply settles_bind; [apply extras_settle'; lia|]. intros s4 _. apply settles_ret. exact Logic.I. }
  destruct hset as (F & r & h1 & h2). exists F. intros f hf'. rewrite h1 by exact hf'. destruct r; [discriminate|discriminate|discriminate|discriminate|contradiction].
Qed.
End Top.

(** Counting up from 2^100 is fair. *)
Lemma counting_addresses_fair : fair (fun i => NewAddress (2 ^ 100 + Z.of_nat i mod 2 ^ 100)).
Proof.
  intros n l hl.
  assert (hval : forall i, NewAddress (2 ^ 100 + Z.of_nat i mod 2 ^ 100) = 2 ^ 100 + Z.of_nat i mod 2 ^ 100).
  { intros i. pose proof (Z.mod_pos_bound (Z.of_nat i) (2 ^ 100) ltac:(lia)). apply Z.mod_small. lia. }
  set (vals := map (fun i => NewAddress (2 ^ 100 + Z.of_nat (n + i) mod 2 ^ 100)) (seq 0 (S (length l)))).
  assert (hnd : NoDup vals).
  { unfold vals. apply map_nodup; [|apply seq_NoDup]. intros i j hi hj e. rewrite !hval in e. apply in_seq in hi, hj. unfold zlen in hl.
    assert (e2 : (Z.of_nat i - Z.of_nat j) mod 2 ^ 100 = 0).
    { replace (Z.of_nat i - Z.of_nat j) with (Z.of_nat (n + i) - Z.of_nat (n + j)) by lia. rewrite Zminus_mod. replace (Z.of_nat (n + i) mod 2 ^ 100) with (Z.of_nat (n + j) mod 2 ^ 100) by lia. rewrite Z.sub_diag. reflexivity. }
    apply Z.mod_divide in e2; [|lia]. destruct e2 as [q e2]. assert (q = 0) by nia. subst. lia. }
  destruct (Forall_Exists_dec (fun v => In v l) (fun v => in_dec Z.eq_dec v l) vals) as [hall|hex].
  - exfalso. assert (hinc : incl vals l) by (intros v hv; rewrite Forall_forall in hall; apply hall; exact hv).
    pose proof (NoDup_incl_length hnd hinc) as hlen. unfold vals in hlen. rewrite map_length, seq_length in hlen. lia.
  - apply Exists_exists in hex. destruct hex as (v & hv & hn). unfold vals in hv. apply in_map_iff in hv. destruct hv as (i & e & _). exists (n + i)%nat. split; [lia|]. cbv beta. rewrite e. exact hn.
Qed.

Lemma accounts_sound ch fuel a own qs s b : apart ch a -> sized ch -> Forall account_request_ok qs -> AccountsGenerate ch fuel a own (accounts_generator qs) = Generated (s, b) ->
  extends a b /\ zlen (GetCode s own) = 42 /\ Forall (fun q => account_fulfils b s q \/ overlooked a b own qs q) qs.
Proof. intros h1 h2 h3 h. pose proof (accounts_generates ch a own qs h1 h3 h2 fuel) as hg. rewrite h in hg. exact hg. Qed.
Lemma accounts_errors ch fuel a own qs : apart ch a -> sized ch -> Forall account_request_ok qs ->
  match AccountsGenerate ch fuel a own (accounts_generator qs) with
  | ErrUnsatisfiable => ~ accounts_possible a qs | ErrUnboundVariable | Panics => False | Generated _ | Running => True
  end.
Proof. intros h1 h2 h3. pose proof (accounts_generates ch a own qs h1 h3 h2 fuel) as hg. destruct (AccountsGenerate ch fuel a own (accounts_generator qs)) as [[s b]| | | |]; try exact hg; exact Logic.I. Qed.
Lemma accounts_complete ch a own qs : apart ch a -> sized ch -> Forall account_request_ok qs -> fair (fun i => NewAddress (ch_address ch i)) -> 2 * zlen qs < 2 ^ 63 ->
  exists F, forall fuel, (F <= fuel)%nat ->
    AccountsGenerate ch fuel a own (accounts_generator qs) = ErrUnsatisfiable \/ exists s b, AccountsGenerate ch fuel a own (accounts_generator qs) = Generated (s, b).
Proof.
  intros h1 h2 h3 h4 h5. destruct (accounts_terminate ch a own qs h4 h5) as (F & hF). exists F. intros fuel hf. specialize (hF fuel hf).
  pose proof (accounts_generates ch a own qs h1 h3 h2 fuel) as hg. destruct (AccountsGenerate ch fuel a own (accounts_generator qs)) as [[s b]| | | |]; try contradiction; try (exfalso; apply hF; reflexivity); [right; eauto|left; reflexivity].
Qed.
(** requests none of which is overlooked were possible *)
Lemma accounts_generated_possible ch fuel a own qs s b : apart ch a -> sized ch -> Forall account_request_ok qs -> AccountsGenerate ch fuel a own (accounts_generator qs) = Generated (s, b) ->
  Forall (fun q => ~ overlooked a b own qs q) qs -> accounts_possible a qs.
Proof.
  intros h1 h2 h3 h hn. destruct (accounts_sound _ _ _ _ _ _ _ h1 h2 h3 h) as (k1 & _ & k2). exists b, s. split; [exact k1|]. rewrite Forall_forall in *. intros q hq.
  destruct (k2 q hq) as [hk|hk]; [exact hk|exfalso; exact (hn q hq hk)].
Qed.

Lemma full_range r : RandU256Between r 0 (2 ^ 256 - 1) = 0.
Proof. unfold RandU256Between. rewrite Z.sub_0_r, (Z.mod_small (2 ^ 256 - 1)) by lia. replace (2 ^ 256 - 1 + 1) with (2 ^ 256) by lia. rewrite Z_mod_same_full. reflexivity. Qed.
