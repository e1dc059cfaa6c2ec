(** Proofs about the generator of accounts. *)
From Verif Require Import Base Host GoStorage CtSolve CtGen SpecGen CtStorageFacts CtGenTerm CtAccounts SpecAccounts.
From Coq Require Import Lia ZArith List Bool Permutation.
Import ListNotations.
Open Scope Z_scope.

(** ** The generator under requests *)
Lemma flag_in x b l c : In c (append_flag x b l) <-> In c l \/ c = mkWarm x b.
Proof.
  unfold append_flag. destruct (existsb _ l) eqn:e.
  - apply existsb_exists in e. destruct e as (d & h1 & h2). apply warm_eq_true in h2. subst d. split; [auto|intros [h| ->]; assumption].
  - rewrite in_app_iff. cbn. intuition congruence.
Qed.
Lemma flag_nodup x b l : NoDup l -> NoDup (append_flag x b l).
Proof.
  unfold append_flag. intros h. destruct (existsb _ l) eqn:e; [exact h|]. apply nodup_snoc'; [exact h|]. intros hi.
  assert (existsb (fun c => warm_eq c (mkWarm x b)) l = true); [|congruence]. apply existsb_exists. eexists. split; [exact hi|]. apply warm_eq_true. reflexivity.
Qed.
Lemma bound_in x v l c : In c (append_bound x v l) <-> In c l \/ c = (x, v).
Proof.
  unfold append_bound, has_pair. destruct (existsb _ l) eqn:e.
  - apply existsb_exists in e. destruct e as ([p q] & h1 & h2). cbn in h2. apply andb_true_iff in h2. destruct h2 as [h2 h3]. apply Z.eqb_eq in h2, h3. subst. split; [auto|intros [h| ->]; assumption].
  - rewrite in_app_iff. cbn. intuition congruence.
Qed.

Lemma accounts_lists qs : let g := accounts_generator qs in
  (forall x, In (mkWarm x true) (ag_empty g) <-> In (Empty x) qs) /\
  (forall x, In (mkWarm x false) (ag_empty g) <-> In (NonEmpty x) qs) /\
  (forall x v, In (x, v) (ag_min g) <-> In (AtLeast x v) qs) /\
  (forall x v, In (x, v) (ag_max g) <-> In (AtMost x v) qs) /\
  (forall x, In (mkWarm x true) (ag_warm g) <-> In (WarmAt x) qs) /\
  (forall x, In (mkWarm x false) (ag_warm g) <-> In (ColdAt x) qs) /\
  NoDup (ag_empty g) /\ NoDup (ag_warm g).
Proof.
  induction qs as [|q qs IH] using rev_ind.
  - cbn. repeat split; try tauto; constructor.
  - cbv zeta in *. unfold accounts_generator in *. rewrite fold_left_app. cbn [fold_left]. set (g := fold_left account_call qs NewAccountGenerator) in *.
    destruct IH as (A & B & C & D & E & F & G & H).
    destruct q as [x|x|x v|x v|x|x]; cbn [account_call BindToAddressOfEmptyAccount BindToAddressOfNonEmptyAccount AddBalanceLowerBound AddBalanceUpperBound AccountBindWarm AccountBindCold ag_empty ag_min ag_max ag_warm];
      (split; [intros y; rewrite ?flag_in, ?A, in_app_iff; cbn; intuition congruence|]);
      (split; [intros y; rewrite ?flag_in, ?B, in_app_iff; cbn; intuition congruence|]);
      (split; [intros y w; rewrite ?bound_in, ?C, in_app_iff; cbn; intuition congruence|]);
      (split; [intros y w; rewrite ?bound_in, ?D, in_app_iff; cbn; intuition congruence|]);
      (split; [intros y; rewrite ?flag_in, ?E, in_app_iff; cbn; intuition congruence|]);
      (split; [intros y; rewrite ?flag_in, ?F, in_app_iff; cbn; intuition congruence|]);
      (split; [|]); try apply flag_nodup; assumption.
Qed.

(** ** Accounts *)
Lemma get_put s k x k' w : GetAccount (mkAccounts (put (accounts s) k x) w) k' = if k' =? k then x else GetAccount s k'.
Proof. unfold GetAccount, put. cbn. destruct (k' =? k); reflexivity. Qed.

Lemma between lo hi r : 0 <= lo -> lo <= hi -> hi < 2 ^ 256 -> lo <= RandU256Between r lo hi <= hi.
Proof.
  intros h1 h2 h3. unfold RandU256Between. rewrite (Z.mod_small (hi - lo)) by lia.
  destruct (Z.eq_dec (hi - lo + 1) (2 ^ 256)) as [e|e].
  - rewrite e, Z_mod_same_full. cbn [Z.eqb]. rewrite Z.add_0_r, Z.mod_small; lia.
  - rewrite (Z.mod_small (hi - lo + 1)) by lia. destruct (Z.eqb_spec (hi - lo + 1) 0) as [e2|e2]; [lia|].
    pose proof (Z.mod_pos_bound r (hi - lo + 1) ltac:(lia)). rewrite Z.mod_small; lia.
Qed.

Lemma has_in l x : has l x = true <-> In x l. Proof. apply existsb_in. Qed.

Lemma make_empty_get s x y : GetAccount (make_empty s x) y = if y =? x then mkAccount 0 [] else GetAccount s y.
Proof. unfold make_empty, SetCode, SetBalance. rewrite get_put. cbn [accounts warm_accounts]. unfold GetAccount at 1. cbn [accounts]. rewrite put_eq. cbn.
  destruct (y =? x) eqn:e; [reflexivity|]. rewrite get_put, e. reflexivity. Qed.

Definition account_empty (x : Account) : Prop := Balance x = 0 /\ Code x = [].

Section Accounts.
Variable ch : choices.
Variable fuel : nat.
Variable a : Assignment.
Variable own : Z.
Hypothesis ap : apart ch a.

Lemma make_nonempty_get s x y : (y = x -> ~ account_empty (GetAccount (make_nonempty ch s x) y)) /\ (y <> x -> GetAccount (make_nonempty ch s x) y = GetAccount s y).
Proof.
  unfold make_nonempty. destruct (ch_kind ch x mod 3 =? 0), (ch_kind ch x mod 3 =? 1); unfold SetCode, SetBalance; rewrite !get_put; cbn [Balance Code accounts warm_accounts];
    (split; [intros ->; rewrite Z.eqb_refl; intros [h1 h2]; try discriminate h1; discriminate h2|intros h; rewrite (proj2 (Z.eqb_neq _ _) h); try reflexivity; rewrite get_put, (proj2 (Z.eqb_neq _ _) h); reflexivity]).
Qed.
Lemma nonempties : forall N s A,
  (In A N -> ~ account_empty (GetAccount (fold_left (make_nonempty ch) N s) A)) /\ (~ In A N -> GetAccount (fold_left (make_nonempty ch) N s) A = GetAccount s A) /\
  (~ account_empty (GetAccount s A) -> ~ account_empty (GetAccount (fold_left (make_nonempty ch) N s) A)).
Proof.
  induction N as [|x N IH]; intros s A; cbn [fold_left In]; [tauto|]. destruct (IH (make_nonempty ch s x) A) as (h1 & h2 & h3). destruct (make_nonempty_get s x A) as (k1 & k2).
  split; [|split].
  - intros [->|h]; [apply h3, k1; reflexivity|apply h1; exact h].
  - intros h. rewrite h2, k2; [reflexivity| |]; intros e; apply h; [left; symmetry; exact e|right; exact e].
  - intros h. apply h3. destruct (Z.eq_dec A x) as [e|e]; [apply k1; exact e|rewrite k2 by exact e; exact h].
Qed.
Lemma empties_get : forall E s A, GetAccount (fold_left make_empty E s) A = if has E A then mkAccount 0 [] else GetAccount s A.
Proof.
  induction E as [|x E IH]; intros s A; cbn [fold_left]; [reflexivity|]. rewrite IH, make_empty_get. unfold has. cbn [existsb]. destruct (A =? x), (existsb (Z.eqb A) E); reflexivity.
Qed.
Lemma fold_warm : forall E N A, warm_accounts (fold_left (make_nonempty ch) N (fold_left make_empty E NewAccountsBuilder)) A = false.
Proof.
  assert (forall N s, warm_accounts (fold_left (make_nonempty ch) N s) = warm_accounts s) as hN.
  { induction N as [|x N IH]; intros s; cbn [fold_left]; [reflexivity|]. rewrite IH. unfold make_nonempty. destruct (_ =? 0); [reflexivity|]. destruct (_ =? 1); reflexivity. }
  assert (forall E s, warm_accounts (fold_left make_empty E s) = warm_accounts s) as hE.
  { induction E as [|x E IH]; intros s; cbn [fold_left]; [reflexivity|]. rewrite IH. reflexivity. }
  intros E N A. rewrite hN, hE. reflexivity.
Qed.

(** ** Bound and fresh addresses *)
Definition ainv (g : gstate) : Prop := extends a (asg g) /\
  (forall x v, asg g x = Some v -> a x = None -> v = NewAddress v /\ In v (used g) /\ exists i, v = NewAddress (ch_address ch i)) /\
  (forall x y A, names (asg g) x A -> names (asg g) y A -> x = y \/ names a x A /\ names a y A).
Definition agrow (g g' : gstate) : Prop := extends (asg g) (asg g') /\ incl (used g) (used g').
Lemma agrow_refl g : agrow g g. Proof. split; [intros x v h; exact h|apply incl_refl]. Qed.
Lemma agrow_trans g1 g2 g3 : agrow g1 g2 -> agrow g2 g3 -> agrow g1 g3.
Proof. intros [h1 h2] [h3 h4]. split; [intros x v h; apply h3, h1, h|eapply incl_tran; eassumption]. Qed.
Lemma names_mono b c x A : extends b c -> names b x A -> names c x A.
Proof. intros he (v & h1 & h2). exists v. split; [apply he; exact h1|exact h2]. Qed.
Lemma names_fun b x A B : names b x A -> names b x B -> A = B.
Proof. intros (v & h1 & h2) (w & h3 & h4). congruence. Qed.
Lemma names_small A : A = NewAddress A <-> 0 <= A < 2 ^ 160.
Proof. unfold NewAddress. split; [intros ->; apply Z.mod_pos_bound; lia|intros h; rewrite Z.mod_small; lia]. Qed.

Lemma retry_from rnd : forall n ex g v g', retry rnd n ex g = Generated (v, g') -> exists i, v = rnd i.
Proof.
  induction n as [|n IH]; cbn [retry draw]; intros ex g v g' h; [discriminate|]. destruct (existsb _ ex); [apply IH in h; exact h|]. inversion h. eexists. reflexivity.
Qed.
Lemma fresh_ok g k g' : getUnusedAddress ch fuel g = Generated (k, g') -> ~ In k (used g) /\ used g' = k :: used g /\ asg g' = asg g /\ exists i, k = NewAddress (ch_address ch i).
Proof.
  unfold getUnusedAddress. intros h. pose proof (unused_ok _ _ _ _ _ h) as (h1 & h2 & h3). split; [exact h1|]. split; [exact h2|]. split; [exact h3|].
  unfold getUnusedKey in h. destruct (retry _ fuel (used g) g) as [[v g1]| | | |] eqn:e; cbn in h; try discriminate. inversion h; subst. apply retry_from in e. exact e.
Qed.

Lemma bind_ok x g A g' : ainv g -> getBoundOrBindNewAddress ch fuel x g = Generated (A, g') -> ainv g' /\ agrow g g' /\ names (asg g') x A.
Proof.
  intros (i1 & i2 & i3). unfold getBoundOrBindNewAddress. destruct (asg g x) as [v|] eqn:ex.
  - intros h. inversion h; subst. split; [exact (conj i1 (conj i2 i3))|]. split; [apply agrow_refl|]. exists v. split; [exact ex|reflexivity].
  - destruct (getUnusedAddress ch fuel g) as [[k g1]| | | |] eqn:e; cbn; intros h; try discriminate. inversion h; subst. clear h.
    apply fresh_ok in e. destruct e as (h1 & h2 & h3 & i & h4).
    assert (hk : A = NewAddress A) by (rewrite h4; unfold NewAddress; symmetry; apply Z.mod_mod; lia).
    assert (hnew : forall y B, names (asg g) y B -> B <> A).
    { intros y B (w & hw & ->) e. destruct (a y) as [w'|] eqn:ey.
      - pose proof (i1 _ _ ey) as hw'. rewrite hw in hw'. injection hw' as <-. apply (ap i y A); [|symmetry; exact h4]. exists w. split; [exact ey|symmetry; exact e].
      - destruct (i2 _ _ hw ey) as (k1 & k2 & _). unfold NewAddress in k1. rewrite <- k1 in e. subst w. contradiction. }
    assert (hput : extends (asg g) (put (asg g) x A)) by (intros y w hy; unfold put; destruct (Z.eqb_spec y x) as [->|_]; [congruence|exact hy]).
    assert (hnames : forall y B, names (put (asg g) x A) y B -> y = x /\ B = A \/ y <> x /\ names (asg g) y B).
    { intros y B (w & hw & ->). unfold put in hw. destruct (Z.eqb_spec y x) as [->|hy]; [left; inversion hw; subst; split; [reflexivity|symmetry; exact hk]|right; split; [exact hy|exists w; auto]]. }
    rewrite h3. split; [|split].
    + split; [|split].
      * cbn. intros y w hy. apply hput, i1, hy.
      * cbn. rewrite h2. intros y w hy hn. unfold put in hy. destruct (Z.eqb_spec y x) as [->|hyx].
        -- inversion hy; subst w. split; [exact hk|]. split; [left; reflexivity|exists i; exact h4].
        -- destruct (i2 _ _ hy hn) as (k1 & k2 & k3). split; [exact k1|]. split; [right; exact k2|exact k3].
      * cbn. intros y z B hy hz. apply hnames in hy, hz. destruct hy as [[-> ->]|[hy1 hy2]], hz as [[-> e]|[hz1 hz2]].
        -- left. reflexivity.
        -- exfalso. apply (hnew z A hz2). reflexivity.
        -- subst B. exfalso. apply (hnew y A hy2). reflexivity.
        -- apply i3; assumption.
    + split; cbn; [exact hput|rewrite h2; apply incl_tl, incl_refl].
    + exists A. cbn. rewrite put_eq. split; [reflexivity|exact hk].
Qed.
Lemma bind_err x g : match getBoundOrBindNewAddress ch fuel x g with Generated _ | Running => True | _ => False end.
Proof.
  unfold getBoundOrBindNewAddress. destruct (asg g x); [exact Logic.I|]. pose proof (unused_err (fun i => NewAddress (ch_address ch i)) fuel g) as h. fold (getUnusedAddress ch fuel g) in h.
  destruct (getUnusedAddress ch fuel g) as [[k g1]| | | |]; cbn; tauto.
Qed.

Lemma together g x y A : ainv g -> names (asg g) x A -> names (asg g) y A -> forall b X Y, extends a b -> names b x X -> names b y Y -> X = Y.
Proof.
  intros (_ & _ & i3) hx hy b X Y he hX hY. destruct (i3 x y A hx hy) as [->|[h1 h2]]; [apply (names_fun b y); assumption|].
  rewrite (names_fun b x X A hX (names_mono _ _ _ _ he h1)), (names_fun b y Y A hY (names_mono _ _ _ _ he h2)). reflexivity.
Qed.

Definition from_flags (all : list warmcold) (f : bool) (g : gstate) (E : list Z) : Prop := forall A, In A E -> exists x, In (mkWarm x f) all /\ names (asg g) x A.
Lemma from_mono all f g g' E : agrow g g' -> from_flags all f g E -> from_flags all f g' E.
Proof. intros [h _] hf A hA. destruct (hf A hA) as (x & h1 & h2). exists x. split; [exact h1|eapply names_mono; eassumption]. Qed.
Lemma from_cons all f g E x A : from_flags all f g E -> In (mkWarm x f) all -> names (asg g) x A -> from_flags all f g (A :: E).
Proof. intros hf h1 h2 B [<-|h]; [exists x; auto|apply hf; exact h]. Qed.

Lemma empties_ok all : forall l E N g, ainv g -> incl l all -> from_flags all true g E -> from_flags all false g N ->
  match empties ch fuel l E N g with
  | Generated (E', N', g') => ainv g' /\ agrow g g' /\ from_flags all true g' E' /\ from_flags all false g' N' /\ incl E E' /\ incl N N' /\
      (forall x, In (mkWarm x true) l -> exists A, In A E' /\ names (asg g') x A) /\ (forall x, In (mkWarm x false) l -> exists A, In A N' /\ names (asg g') x A) /\
      ((forall A, In A E -> In A N -> False) -> forall A, In A E' -> In A N' -> False)
  | ErrUnsatisfiable => exists g' x y A, ainv g' /\ In (mkWarm x true) all /\ In (mkWarm y false) all /\ names (asg g') x A /\ names (asg g') y A
  | Running => True | _ => False
  end.
Proof.
  induction l as [|[x f] l IH]; intros E N g hi hl hE hN; cbn [empties].
  - split; [exact hi|]. split; [apply agrow_refl|]. split; [exact hE|]. split; [exact hN|]. split; [apply incl_refl|]. split; [apply incl_refl|]. split; [intros x []|]. split; [intros x []|auto].
  - cbn [wc_key wc_warm]. destruct (getBoundOrBindNewAddress ch fuel x g) as [[A g1]| | | |] eqn:e; pose proof (bind_err x g) as he; rewrite e in he; try contradiction; cbn [gbind]; [|exact Logic.I].
    apply bind_ok in e; [|exact hi]. destruct e as (i1 & gr & hA).
    assert (hx : In (mkWarm x f) all) by (apply hl; left; reflexivity). assert (hl' : incl l all) by (intros c hc; apply hl; right; exact hc).
    pose proof (from_mono _ _ _ _ _ gr hE) as hE1. pose proof (from_mono _ _ _ _ _ gr hN) as hN1.
    destruct f.
    + destruct (has N A) eqn:hh.
      * apply has_in in hh. destruct (hN1 _ hh) as (y & h1 & h2). exists g1, x, y, A. auto.
      * specialize (IH (A :: E) N g1 i1 hl' (from_cons _ _ _ _ _ _ hE1 hx hA) hN1). destruct (empties ch fuel l (A :: E) N g1) as [[[E' N'] g']| | | |]; try exact IH.
        destruct IH as (k1 & k2 & k3 & k4 & k5 & k6 & k7 & k8 & k9).
        split; [exact k1|]. split; [eapply agrow_trans; eassumption|]. split; [exact k3|]. split; [exact k4|]. split; [intros c hc; apply k5; right; exact hc|]. split; [exact k6|].
        split; [|split].
        -- intros y [hy|hy]; [|apply k7; exact hy]. inversion hy; subst. exists A. split; [apply k5; left; reflexivity|]. eapply names_mono; [apply k2|exact hA].
        -- intros y [hy|hy]; [discriminate|apply k8; exact hy].
        -- intros hd. apply k9. intros B [<-|hB] hB2; [|exact (hd B hB hB2)]. apply has_in in hB2. congruence.
    + destruct (has E A) eqn:hh.
      * apply has_in in hh. destruct (hE1 _ hh) as (y & h1 & h2). exists g1, y, x, A. auto.
      * specialize (IH E (A :: N) g1 i1 hl' hE1 (from_cons _ _ _ _ _ _ hN1 hx hA)). destruct (empties ch fuel l E (A :: N) g1) as [[[E' N'] g']| | | |]; try exact IH.
        destruct IH as (k1 & k2 & k3 & k4 & k5 & k6 & k7 & k8 & k9).
        split; [exact k1|]. split; [eapply agrow_trans; eassumption|]. split; [exact k3|]. split; [exact k4|]. split; [exact k5|]. split; [intros c hc; apply k6; right; exact hc|].
        split; [|split].
        -- intros y [hy|hy]; [discriminate|apply k7; exact hy].
        -- intros y [hy|hy]; [|apply k8; exact hy]. inversion hy; subst. exists A. split; [apply k6; left; reflexivity|]. eapply names_mono; [apply k2|exact hA].
        -- intros hd. apply k9. intros B hB [<-|hB2]; [|exact (hd B hB hB2)]. apply has_in in hB. congruence.
Qed.

Lemma warms_ok' : forall l s g, ainv g ->
  match account_warms ch fuel l s g with
  | Generated (s', g') => ainv g' /\ agrow g g' /\ accounts s' = accounts s /\
      (forall A, IsWarm s' A = true <-> IsWarm s A = true \/ exists x, In (mkWarm x true) l /\ names (asg g') x A) /\ (forall c, In c l -> exists A, names (asg g') (wc_key c) A /\ (In A (used g') \/ names a (wc_key c) A))
  | Running => True | _ => False
  end.
Proof.
  induction l as [|[x f] l IH]; intros s g hi; cbn [account_warms].
  - split; [exact hi|]. split; [apply agrow_refl|]. split; [reflexivity|]. split; [|intros c []]. intros A. split; [auto|intros [h|(x & [] & _)]; exact h].
  - cbn [wc_key wc_warm]. destruct (getBoundOrBindNewAddress ch fuel x g) as [[A g1]| | | |] eqn:e; pose proof (bind_err x g) as he; rewrite e in he; try contradiction; cbn [gbind]; [|exact Logic.I].
    apply bind_ok in e; [|exact hi]. destruct e as (i1 & gr & hA).
    specialize (IH (if f then MarkWarm A s else s) g1 i1). destruct (account_warms ch fuel l (if f then MarkWarm A s else s) g1) as [[s' g']| | | |]; try exact IH.
    destruct IH as (k1 & k2 & k3 & k4 & k5).
    assert (hA' : names (asg g') x A) by (eapply names_mono; [apply k2|exact hA]).
    split; [exact k1|]. split; [eapply agrow_trans; eassumption|]. split; [rewrite k3; destruct f; reflexivity|]. split.
    + intros B. rewrite k4. split.
      * intros [h|(y & h1 & h2)]; [|right; exists y; split; [right; exact h1|exact h2]]. destruct f; [|left; exact h].
        unfold IsWarm, MarkWarm in h. cbn in h. destruct (Z.eqb_spec B A) as [eB|_]; [rewrite eB; right; exists x; split; [left; reflexivity|exact hA']|left; exact h].
      * intros [h|(y & [h1|h1] & h2)].
        -- left. destruct f; [|exact h]. unfold IsWarm, MarkWarm. cbn. destruct (B =? A); [reflexivity|exact h].
        -- inversion h1; subst. left. rewrite (names_fun _ _ _ _ h2 hA'). unfold IsWarm, MarkWarm. cbn. rewrite Z.eqb_refl. reflexivity.
        -- right. exists y. auto.
    + intros c [<-|hc]; [|apply k5; exact hc]. exists A. cbn. split; [exact hA'|]. destruct (a x) as [v|] eqn:ev.
      * right. destruct hA' as (w & hw & ->). exists w. split; [|reflexivity]. destruct k1 as [k1 _]. rewrite (k1 _ _ ev) in hw. congruence.
      * left. destruct hA' as (w & hw & ->). destruct k1 as (_ & k1 & _). destruct (k1 _ _ hw ev) as (p1 & p2 & _). unfold NewAddress in p1. rewrite <- p1. exact p2.
Qed.

(** The bounds collected so far *)
Definition from_bounds (all : list (Z * Z)) (g : gstate) (keys : list Z) (m : Z -> option Z) : Prop :=
  (forall A v, m A = Some v -> In A keys /\ exists x, In (x, v) all /\ names (asg g) x A) /\ (forall A, In A keys -> m A <> None).
Lemma bounds_mono all g g' K m : agrow g g' -> from_bounds all g K m -> from_bounds all g' K m.
Proof.
  intros [h _] [h1 h2]. split; [|exact h2]. intros A v hA. destruct (h1 A v hA) as (k1 & x & k2 & k3). split; [exact k1|]. exists x. split; [exact k2|eapply names_mono; eassumption].
Qed.
Lemma bounds_put all g K m x v A : from_bounds all g K m -> In (x, v) all -> names (asg g) x A -> from_bounds all g (A :: K) (put m A v).
Proof.
  intros [h1 h2] hx hA. split.
  - intros B w. unfold put. destruct (Z.eqb_spec B A) as [->|hn].
    + intros e. inversion e; subst. split; [left; reflexivity|]. exists x. auto.
    + intros e. destruct (h1 B w e) as (k1 & k2). split; [right; exact k1|exact k2].
  - intros B hB. unfold put. destruct (Z.eqb_spec B A) as [->|hn]; [discriminate|]. apply h2. destruct hB as [->|hB]; [contradiction|exact hB].
Qed.

Lemma lowers_ok all : (forall x v, In (x, v) all -> 0 <= v) -> forall l K m g, ainv g -> incl l all -> from_bounds all g K m ->
  match lowers ch fuel l K m g with
  | Generated (K', m', g') => ainv g' /\ agrow g g' /\ from_bounds all g' K' m' /\ (forall A, read m A <= read m' A) /\
      (forall x v, In (x, v) l -> exists A, names (asg g') x A /\ v <= read m' A)
  | Running => True | _ => False
  end.
Proof.
  intros hpos. induction l as [|[x v] l IH]; intros K m g hi hl hb; cbn [lowers].
  - split; [exact hi|]. split; [apply agrow_refl|]. split; [exact hb|]. split; [intros; lia|intros x v []].
  - destruct (getBoundOrBindNewAddress ch fuel x g) as [[A g1]| | | |] eqn:e; pose proof (bind_err x g) as he; rewrite e in he; try contradiction; cbn [gbind]; [|exact Logic.I].
    apply bind_ok in e; [|exact hi]. destruct e as (i1 & gr & hA).
    assert (hx : In (x, v) all) by (apply hl; left; reflexivity). assert (hl' : incl l all) by (intros c hc; apply hl; right; exact hc).
    pose proof (bounds_mono _ _ _ _ _ gr hb) as hb1.
    destruct (Z.ltb_spec (read m A) v) as [hlt|hge].
    + specialize (IH (A :: K) (put m A v) g1 i1 hl' (bounds_put _ _ _ _ _ _ _ hb1 hx hA)). destruct (lowers ch fuel l (A :: K) (put m A v) g1) as [[[K' m'] g']| | | |]; try exact IH.
      destruct IH as (k1 & k2 & k3 & k4 & k5). split; [exact k1|]. split; [eapply agrow_trans; eassumption|]. split; [exact k3|]. split.
      * intros B. specialize (k4 B). destruct (Z.eq_dec B A) as [->|hn]; [rewrite read_put in k4; lia|rewrite read_other in k4 by exact hn; exact k4].
      * intros y w [hy|hy]; [|apply k5; exact hy]. inversion hy; subst. exists A. split; [eapply names_mono; [apply k2|exact hA]|]. specialize (k4 A). rewrite read_put in k4. exact k4.
    + specialize (IH K m g1 i1 hl' hb1). destruct (lowers ch fuel l K m g1) as [[[K' m'] g']| | | |]; try exact IH.
      destruct IH as (k1 & k2 & k3 & k4 & k5). split; [exact k1|]. split; [eapply agrow_trans; eassumption|]. split; [exact k3|]. split; [exact k4|].
      intros y w [hy|hy]; [|apply k5; exact hy]. inversion hy; subst. exists A. split; [eapply names_mono; [apply k2|exact hA]|]. specialize (k4 A). lia.
Qed.

Lemma uppers_ok all : forall l K m g, ainv g -> incl l all -> from_bounds all g K m ->
  match uppers ch fuel l K m g with
  | Generated (K', m', g') => ainv g' /\ agrow g g' /\ from_bounds all g' K' m' /\ (forall A u, m A = Some u -> exists u', m' A = Some u' /\ u' <= u) /\
      (forall x v, In (x, v) l -> exists A u, names (asg g') x A /\ m' A = Some u /\ u <= v)
  | Running => True | _ => False
  end.
Proof.
  induction l as [|[x v] l IH]; intros K m g hi hl hb; cbn [uppers].
  - split; [exact hi|]. split; [apply agrow_refl|]. split; [exact hb|]. split; [intros A u h; exists u; split; [exact h|lia]|intros x v []].
  - destruct (getBoundOrBindNewAddress ch fuel x g) as [[A g1]| | | |] eqn:e; pose proof (bind_err x g) as he; rewrite e in he; try contradiction; cbn [gbind]; [|exact Logic.I].
    apply bind_ok in e; [|exact hi]. destruct e as (i1 & gr & hA).
    assert (hx : In (x, v) all) by (apply hl; left; reflexivity). assert (hl' : incl l all) by (intros c hc; apply hl; right; exact hc).
    pose proof (bounds_mono _ _ _ _ _ gr hb) as hb1.
    destruct (match m A with Some current => current >? v | None => true end) eqn:ec.
    + specialize (IH (A :: K) (put m A v) g1 i1 hl' (bounds_put _ _ _ _ _ _ _ hb1 hx hA)). destruct (uppers ch fuel l (A :: K) (put m A v) g1) as [[[K' m'] g']| | | |]; try exact IH.
      destruct IH as (k1 & k2 & k3 & k4 & k5). split; [exact k1|]. split; [eapply agrow_trans; eassumption|]. split; [exact k3|]. split.
      * intros B u hB. destruct (Z.eq_dec B A) as [->|hn].
        -- rewrite hB in ec. destruct (k4 A v (put_eq _ _ _)) as (u' & p1 & p2). exists u'. split; [exact p1|]. rewrite Z.gtb_ltb in ec. apply Z.ltb_lt in ec. lia.
        -- apply k4. rewrite put_neq by exact hn. exact hB.
      * intros y w [hy|hy]; [|apply k5; exact hy]. inversion hy; subst. destruct (k4 A w (put_eq _ _ _)) as (u' & p1 & p2). exists A, u'. split; [eapply names_mono; [apply k2|exact hA]|auto].
    + specialize (IH K m g1 i1 hl' hb1). destruct (uppers ch fuel l K m g1) as [[[K' m'] g']| | | |]; try exact IH.
      destruct IH as (k1 & k2 & k3 & k4 & k5). split; [exact k1|]. split; [eapply agrow_trans; eassumption|]. split; [exact k3|]. split; [exact k4|].
      intros y w [hy|hy]; [|apply k5; exact hy]. inversion hy; subst. destruct (m A) as [u|] eqn:em; [|discriminate]. rewrite Z.gtb_ltb in ec. apply Z.ltb_ge in ec.
      destruct (k4 A u em) as (u' & p1 & p2). exists A, u'. split; [eapply names_mono; [apply k2|exact hA]|]. split; [exact p1|lia].
Qed.

Lemma cap_get : forall E m A, fold_left cap E m A = if has E A then Some 0 else m A.
Proof. induction E as [|x E IH]; intros m A; cbn [fold_left]; [reflexivity|]. rewrite IH. unfold cap, put, has. cbn [existsb]. destruct (A =? x), (existsb (Z.eqb A) E); reflexivity. Qed.

Definition lower_of (lo : Z -> option Z) (A : Z) : Z := match lo A with Some v => v | None => 0 end.
Definition upper_of (hi : Z -> option Z) (A : Z) : Z := match hi A with Some v => v | None => 2 ^ 256 - 1 end.
Lemma balances_ok lo hi : (forall A v, lo A = Some v -> is_word v) -> (forall A v, hi A = Some v -> is_word v) -> forall keys s,
  match balances ch keys lo hi s with
  | Generated s' => (forall A, In A keys -> lower_of lo A <= GetBalance s' A <= upper_of hi A) /\ (forall A, ~ In A keys -> GetBalance s' A = GetBalance s A) /\
      (forall A, lower_of lo A <= GetBalance s A <= upper_of hi A -> lower_of lo A <= GetBalance s' A <= upper_of hi A) /\
      (forall A, GetCode s' A = GetCode s A) /\ warm_accounts s' = warm_accounts s /\ (forall A, In A keys \/ ExistsAccount s A = true -> ExistsAccount s' A = true)
  | ErrUnsatisfiable => exists A, In A keys /\ lower_of lo A > upper_of hi A
  | _ => False
  end.
Proof.
  intros wl wh. induction keys as [|x keys IH]; intros s; cbn [balances].
  - split; [intros A []|]. split; [reflexivity|]. split; [auto|]. split; [reflexivity|]. split; [reflexivity|]. intros A [[]|h]; exact h.
  - fold (lower_of lo x). fold (upper_of hi x). rewrite Z.gtb_ltb. destruct (Z.ltb_spec (upper_of hi x) (lower_of lo x)) as [hlt|hge]; [exists x; split; [left; reflexivity|lia]|].
    set (v := RandU256Between (ch_balance ch x) (lower_of lo x) (upper_of hi x)).
    assert (hv : lower_of lo x <= v <= upper_of hi x).
    { apply between; [|exact hge|].
      - unfold lower_of. destruct (lo x) eqn:e; [apply wl in e; unfold is_word in e; lia|lia].
      - unfold upper_of. destruct (hi x) eqn:e; [apply wh in e; unfold is_word in e; lia|lia]. }
    specialize (IH (SetBalance x v s)). destruct (balances ch keys lo hi (SetBalance x v s)) as [s'| | | |]; try exact IH; [|destruct IH as (A & h1 & h2); exists A; split; [right; exact h1|exact h2]].
    destruct IH as (k1 & k2 & k3 & k4 & k5 & k6).
    assert (hbal : forall A, GetBalance (SetBalance x v s) A = if A =? x then v else GetBalance s A).
    { intros A. unfold GetBalance, SetBalance. rewrite get_put. destruct (A =? x); reflexivity. }
    split; [|split; [|split; [|split; [|split]]]].
    + intros A [<-|h]; [|apply k1; exact h]. apply k3. rewrite hbal, Z.eqb_refl. exact hv.
    + intros A h. rewrite k2, hbal; [|intros c; apply h; right; exact c]. destruct (Z.eqb_spec A x) as [->|]; [exfalso; apply h; left; reflexivity|reflexivity].
    + intros A h. apply k3. rewrite hbal. destruct (Z.eqb_spec A x) as [->|]; [exact hv|exact h].
    + intros A. rewrite k4. unfold GetCode, SetBalance. rewrite get_put. destruct (Z.eqb_spec A x) as [->|]; reflexivity.
    + rewrite k5. reflexivity.
    + intros A h. apply k6. destruct h as [[->|h]|h]; [right; unfold ExistsAccount, SetBalance; cbn; rewrite put_eq; reflexivity|left; exact h|right].
      unfold ExistsAccount, SetBalance, put. cbn. destruct (A =? x); [reflexivity|exact h].
Qed.

Lemma extras_ok' : forall n i s g, match account_extras ch fuel n i s g with
  | Generated s' => forall A, In A (used g) \/ (exists x, names a x A) -> accounts s' A = accounts s A /\ IsWarm s' A = IsWarm s A
  | Running => True | _ => False
  end.
Proof.
  induction n as [|n IH]; intros i s g; cbn [account_extras]; [auto|].
  pose proof (unused_err (fun i => NewAddress (ch_address ch i)) fuel g) as he. fold (getUnusedAddress ch fuel g) in he.
  destruct (getUnusedAddress ch fuel g) as [[k g1]| | | |] eqn:e; try contradiction; cbn [gbind]; [|exact Logic.I].
  apply fresh_ok in e. destruct e as (h1 & h2 & h3 & j & h4). destruct (ch_extra ch i) as [[bal code] w].
  set (s2 := match code with Some c => SetCode k c (SetBalance k bal s) | None => SetBalance k bal s end).
  specialize (IH (S i) (if w then MarkWarm k s2 else s2) g1). destruct (account_extras ch fuel n (S i) (if w then MarkWarm k s2 else s2) g1) as [s'| | | |]; try exact IH.
  intros A hA. assert (hne : A <> k).
  { intros ->. destruct hA as [hA|(x & hA)]; [contradiction|]. apply (ap j x k hA). symmetry. exact h4. }
  destruct (IH A) as (q1 & q2); [destruct hA as [hA|hA]; [left; rewrite h2; right; exact hA|right; exact hA]|].
  rewrite q1, q2. assert (accounts s2 A = accounts s A /\ IsWarm s2 A = IsWarm s A) as [r1 r2].
  { unfold s2, SetCode, SetBalance, IsWarm. destruct code; cbn; rewrite ?put_neq by exact hne; auto. }
  destruct w; [|auto]. unfold IsWarm, MarkWarm. cbn. rewrite (proj2 (Z.eqb_neq _ _) hne). split; [exact r1|exact r2].
Qed.
End Accounts.
