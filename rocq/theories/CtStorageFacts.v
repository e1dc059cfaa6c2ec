(** Proofs about the storage generators. *)
From Verif Require Import Base Host GoStorage CtSolve CtGen SpecGen.
From Coq Require Import Permutation.

(** Sorting *)
Lemma insert_perm {A} less (a : A) l : Permutation (insert less a l) (a :: l).
Proof. induction l as [|b l IH]; cbn; [reflexivity|]. destruct (less b a); [|reflexivity]. rewrite IH. apply perm_swap. Qed.
Lemma sort_perm {A} less (l : list A) : Permutation (sort less l) l.
Proof. induction l as [|a l IH]; cbn; [reflexivity|]. rewrite insert_perm, IH. reflexivity. Qed.
Lemma sort_in {A} less (l : list A) x : In x (sort less l) <-> In x l.
Proof. split; apply Permutation_in; [|symmetry]; apply sort_perm. Qed.
Lemma sort_nodup {A} less (l : list A) : NoDup l -> NoDup (sort less l).
Proof. apply Permutation_NoDup. symmetry. apply sort_perm. Qed.

Fixpoint ordered {A} (less : A -> A -> bool) (l : list A) : Prop :=
  match l with [] => True | a :: l' => (forall b, In b l' -> less b a = false) /\ ordered less l' end.
Lemma insert_ordered {A} (less : A -> A -> bool) (htr : forall a b c, less b a = true -> less c a = false -> less c b = false)
  (has : forall a b, less a b = true -> less b a = false) (htr2 : forall a b c, less b a = false -> less c b = false -> less c a = false) a l :
  ordered less l -> ordered less (insert less a l).
Proof.
  induction l as [|b l IH]; cbn; [intros _; split; [intros b []|exact Logic.I]|]. intros [h1 h2]. destruct (less b a) eqn:e; cbn.
  - split; [|apply IH; exact h2]. intros c hc. apply (Permutation_in _ (insert_perm less a l)) in hc. destruct hc as [<-|hc]; [apply has; exact e|apply h1; exact hc].
  - split; [|split; assumption]. intros c [<-|hc]; [exact e|]. apply (htr2 _ b); [exact e|apply h1; exact hc].
Qed.
Lemma sort_ordered {A} (less : A -> A -> bool) (htr : forall a b c, less b a = true -> less c a = false -> less c b = false)
  (has : forall a b, less a b = true -> less b a = false) (htr2 : forall a b c, less b a = false -> less c b = false -> less c a = false) l : ordered less (sort less l).
Proof. induction l as [|a l IH]; cbn; [exact Logic.I|]. apply insert_ordered; assumption. Qed.

Lemma neighbours_false {A} (bad : A -> A -> bool) l : neighbours bad l = false -> forall pre a b post, l = pre ++ a :: b :: post -> bad a b = false.
Proof.
  intros h pre. revert l h. induction pre as [|x pre IH]; intros l h a b post e; subst; cbn in h.
  - apply orb_false_iff in h. tauto.
  - destruct (pre ++ a :: b :: post) as [|y l] eqn:e; [destruct pre; discriminate|]. apply orb_false_iff in h. destruct h as [_ h]. apply (IH (y :: l) h a b post). symmetry. exact e.
Qed.
Lemma neighbours_true {A} (bad : A -> A -> bool) l : neighbours bad l = true -> exists a b, In a l /\ In b l /\ bad a b = true.
Proof.
  induction l as [|a l IH]; cbn; [discriminate|]. destruct l as [|b l]; [discriminate|]. intros h. apply orb_true_iff in h. destruct h as [h|h].
  - exists a, b. cbn. auto.
  - destruct (IH h) as (x & y & h1 & h2 & h3). exists x, y. split; [right; exact h1|]. split; [right; exact h2|exact h3].
Qed.

Lemma status_number_inj s t : status_number s = status_number t -> s = t.
Proof. destruct s, t; cbn; intros h; first [reflexivity|discriminate h]. Qed.

Lemma warm_less_tr a b c : warm_Less b a = true -> warm_Less c a = false -> warm_Less c b = false.
Proof.
  unfold warm_Less. destruct a as [ka wa], b as [kb wb], c as [kc wc]; cbn.
  destruct (Z.eqb_spec kb ka), (Z.eqb_spec kc ka), (Z.eqb_spec kc kb); cbn; try lia; destruct wa, wb, wc; cbn; try reflexivity; try discriminate; try lia.
Qed.
Lemma warm_less_as a b : warm_Less a b = true -> warm_Less b a = false.
Proof. unfold warm_Less. destruct a as [ka wa], b as [kb wb]; cbn. destruct (Z.eqb_spec ka kb), (Z.eqb_spec kb ka); cbn; try lia; destruct wa, wb; cbn; try reflexivity; try discriminate; try lia. Qed.
Lemma warm_less_tr2 a b c : warm_Less b a = false -> warm_Less c b = false -> warm_Less c a = false.
Proof.
  unfold warm_Less. destruct a as [ka wa], b as [kb wb], c as [kc wc]; cbn.
  destruct (Z.eqb_spec kb ka), (Z.eqb_spec kc ka), (Z.eqb_spec kc kb); cbn; try lia; destruct wa, wb, wc; cbn; try reflexivity; try discriminate; try lia.
Qed.

(** Warm and cold for the same variable are neighbours in the sorted list. *)
Lemma warm_adjacent k : forall l, ordered warm_Less l -> NoDup l -> neighbours warm_conflict l = false -> In (mkWarm k true) l -> In (mkWarm k false) l -> False.
Proof.
  induction l as [|a l IH]; intros ho hn hne h1 h2; [destruct h1|]. destruct ho as [ho1 ho2]. inversion hn as [|? ? hn1 hn2]; subst.
  assert (hne2 : neighbours warm_conflict l = false) by (cbn in hne; destruct l; [reflexivity|apply orb_false_iff in hne; tauto]).
  destruct h1 as [h1|h1], h2 as [h2|h2].
  - congruence.
  - subst a. destruct l as [|b l]; [destruct h2|]. cbn in hne. apply orb_false_iff in hne. destruct hne as [hne _].
    destruct b as [kb wb]. unfold warm_conflict in hne. cbn in hne.
    pose proof (ho1 _ (or_introl eq_refl)) as hb1. destruct ho2 as [hb2 _].
    destruct h2 as [h2|h2]; [inversion h2; subst; rewrite Z.eqb_refl in hne; discriminate|].
    specialize (hb2 _ h2). unfold warm_Less in hb1, hb2. cbn in hb1, hb2.
    destruct (Z.eqb_spec kb k) as [e|e]; cbn in hb1.
    + subst. rewrite Z.eqb_refl in *. cbn in *. destruct wb; cbn in *; [apply hn1; left; reflexivity|discriminate].
    + destruct (Z.eqb_spec k kb); cbn in hb2; lia.
  - subst a. pose proof (ho1 _ h1) as hb. unfold warm_Less in hb. cbn in hb. rewrite Z.eqb_refl in hb. discriminate.
  - apply IH; assumption.
Qed.

(** The generator made by requests *)
Lemma config_eq_true a b : config_eq a b = true <-> a = b.
Proof.
  unfold config_eq. destruct a as [s k v], b as [s' k' v']; cbn. split.
  - intros h. apply andb_true_iff in h. destruct h as [h h3]. apply andb_true_iff in h. destruct h as [h1 h2].
    apply Z.eqb_eq in h1, h2, h3. apply status_number_inj in h1. subst. reflexivity.
  - intros h. inversion h; subst. rewrite !Z.eqb_refl. reflexivity.
Qed.
Lemma warm_eq_true a b : warm_eq a b = true <-> a = b.
Proof.
  unfold warm_eq. destruct a as [k w], b as [k' w']; cbn. split.
  - intros h. apply andb_true_iff in h. destruct h as [h1 h2]. apply Z.eqb_eq in h1. apply eqb_prop in h2. subst. reflexivity.
  - intros h. inversion h; subst. rewrite Z.eqb_refl, eqb_reflx. reflexivity.
Qed.

Lemma nodup_snoc' {A} (l : list A) x : NoDup l -> ~ In x l -> NoDup (l ++ [x]).
Proof.
  induction l as [|y l IH]; intros h1 h2; cbn; [constructor; [intros []|constructor]|]. inversion h1; subst. constructor.
  - intros h. apply in_app_or in h. destruct h as [h|[<-|[]]]; [auto|]. apply h2. left. reflexivity.
  - apply IH; [assumption|]. intros h. apply h2. right. exact h.
Qed.

Lemma generator_lists qs :
  (forall s k v, In (mkConfig s k v) (g_cfg (storage_generator qs)) <-> In (Config s k v) qs) /\
  (forall k, In (mkWarm k true) (g_warm (storage_generator qs)) <-> In (Warm k) qs) /\
  (forall k, In (mkWarm k false) (g_warm (storage_generator qs)) <-> In (Cold k) qs) /\
  NoDup (g_cfg (storage_generator qs)) /\ NoDup (g_warm (storage_generator qs)).
Proof.
  induction qs as [|q qs IH] using rev_ind.
  - cbn. repeat split; try tauto; constructor.
  - unfold storage_generator. rewrite fold_left_app. cbn [fold_left]. fold (storage_generator qs). set (g := storage_generator qs) in *.
    destruct IH as (A & B & C & D & E). destruct q as [s k v|k|k]; cbn [storage_request_call].
    + unfold BindConfiguration. destruct (existsb (fun c => config_eq c (mkConfig s k v)) (g_cfg g)) eqn:e.
      * apply existsb_exists in e. destruct e as (c & h1 & h2). apply config_eq_true in h2. subst c.
        split; [|split; [|split; [|split; assumption]]].
        -- intros s' k' v'. rewrite A, in_app_iff. cbn. split; [auto|intros [h|[h|[]]]; [exact h|inversion h; subst; apply A; exact h1]].
        -- intros k'. rewrite B, in_app_iff. cbn. split; [auto|intros [h|[h|[]]]; [exact h|discriminate]].
        -- intros k'. rewrite C, in_app_iff. cbn. split; [auto|intros [h|[h|[]]]; [exact h|discriminate]].
      * cbn [g_cfg g_warm]. split; [|split; [|split; [|split; [|assumption]]]].
        -- intros s' k' v'. rewrite !in_app_iff, A. cbn. split; (intros [h|[h|[]]]; [auto|inversion h; subst; auto]).
        -- intros k'. rewrite B, in_app_iff. cbn. split; [auto|intros [h|[h|[]]]; [exact h|discriminate]].
        -- intros k'. rewrite C, in_app_iff. cbn. split; [auto|intros [h|[h|[]]]; [exact h|discriminate]].
        -- apply nodup_snoc'; [assumption|]. intros h. assert (existsb (fun c => config_eq c (mkConfig s k v)) (g_cfg g) = true); [|congruence].
           apply existsb_exists. eexists. split; [exact h|]. apply config_eq_true. reflexivity.
    + unfold BindWarm, bind_warmcold. destruct (existsb (fun c => warm_eq c (mkWarm k true)) (g_warm g)) eqn:e.
      * apply existsb_exists in e. destruct e as (c & h1 & h2). apply warm_eq_true in h2. subst c.
        split; [|split; [|split; [|split; assumption]]].
        -- intros s' k' v'. rewrite A, in_app_iff. cbn. split; [auto|intros [h|[h|[]]]; [exact h|discriminate]].
        -- intros k'. rewrite B, in_app_iff. cbn. split; [auto|intros [h|[h|[]]]; [exact h|inversion h; subst; apply B; exact h1]].
        -- intros k'. rewrite C, in_app_iff. cbn. split; [auto|intros [h|[h|[]]]; [exact h|discriminate]].
      * cbn [g_cfg g_warm]. split; [|split; [|split; [|split; [assumption|]]]].
        -- intros s' k' v'. rewrite A, in_app_iff. cbn. split; [auto|intros [h|[h|[]]]; [exact h|discriminate]].
        -- intros k'. rewrite !in_app_iff, B. cbn. split; (intros [h|[h|[]]]; [auto|inversion h; subst; auto]).
        -- intros k'. rewrite !in_app_iff, C. cbn. split; (intros [h|[h|[]]]; [auto|discriminate]).
        -- apply nodup_snoc'; [assumption|]. intros h. assert (existsb (fun c => warm_eq c (mkWarm k true)) (g_warm g) = true); [|congruence].
           apply existsb_exists. eexists. split; [exact h|]. apply warm_eq_true. reflexivity.
    + unfold BindCold, bind_warmcold. destruct (existsb (fun c => warm_eq c (mkWarm k false)) (g_warm g)) eqn:e.
      * apply existsb_exists in e. destruct e as (c & h1 & h2). apply warm_eq_true in h2. subst c.
        split; [|split; [|split; [|split; assumption]]].
        -- intros s' k' v'. rewrite A, in_app_iff. cbn. split; [auto|intros [h|[h|[]]]; [exact h|discriminate]].
        -- intros k'. rewrite B, in_app_iff. cbn. split; [auto|intros [h|[h|[]]]; [exact h|discriminate]].
        -- intros k'. rewrite C, in_app_iff. cbn. split; [auto|intros [h|[h|[]]]; [exact h|inversion h; subst; apply C; exact h1]].
      * cbn [g_cfg g_warm]. split; [|split; [|split; [|split; [assumption|]]]].
        -- intros s' k' v'. rewrite A, in_app_iff. cbn. split; [auto|intros [h|[h|[]]]; [exact h|discriminate]].
        -- intros k'. rewrite !in_app_iff, B. cbn. split; (intros [h|[h|[]]]; [auto|discriminate]).
        -- intros k'. rewrite !in_app_iff, C. cbn. split; (intros [h|[h|[]]]; [auto|inversion h; subst; auto]).
        -- apply nodup_snoc'; [assumption|]. intros h. assert (existsb (fun c => warm_eq c (mkWarm k false)) (g_warm g) = true); [|congruence].
           apply existsb_exists. eexists. split; [exact h|]. apply warm_eq_true. reflexivity.
Qed.

(** New values *)
Definition fits_value (s : storage_status) (w : Z) : Prop := (NewValueMustBeZero s = true -> w = 0) /\ (NewValueMustNotBeZero s = true -> w <> 0).
Lemma zero_xor s : NewValueMustNotBeZero s = negb (NewValueMustBeZero s). Proof. destruct s; reflexivity. Qed.

Ltac cases_eqb := repeat match goal with |- context [?x =? ?y] => destruct (Z.eqb_spec x y); cbn [andb orb negb] end.

Lemma status_value o c w : fits_value (GetStorageStatus o c w) w \/ GetStorageStatus o c w = S_ASSIGNED /\ w = 0.
Proof.
  unfold fits_value, GetStorageStatus. destruct (Z.eq_dec w 0) as [ew|ew]; cases_eqb; cbn; subst;
    first [left; split; first [discriminate|intros _; lia]|right; split; first [reflexivity|lia]|exfalso; lia].
Qed.

Lemma possible_fits s w : value_possible s w -> fits_value s w.
Proof. intros [(o & c & <-) h]. destruct (status_value o c w) as [h1|[h1 h2]]; [exact h1|]. exfalso. apply h; assumption. Qed.

Section Gen.
Variables (rnd : nat -> Z) (fuel : nat).

Definition grows (g g' : gstate) : Prop := extends (asg g) (asg g') /\ incl (used g) (used g').
Lemma grows_refl g : grows g g. Proof. split; [intros x v h; exact h|apply incl_refl]. Qed.
Lemma grows_trans a b c : grows a b -> grows b c -> grows a c.
Proof. intros [h1 h2] [h3 h4]. split; [intros x v h; apply h3, h1, h|eapply incl_tran; eassumption]. Qed.

Lemma existsb_in v l : existsb (Z.eqb v) l = true <-> In v l.
Proof. rewrite existsb_exists. split; [intros (x & h1 & h2); apply Z.eqb_eq in h2; subst; exact h1|intros h; exists v; split; [exact h|apply Z.eqb_refl]]. Qed.

Lemma retry_ok : forall n ex g v g', retry rnd n ex g = Generated (v, g') -> ~ In v ex /\ used g' = used g /\ asg g' = asg g.
Proof.
  induction n as [|n IH]; cbn [retry draw]; intros ex g v g' h; [discriminate|].
  destruct (existsb (Z.eqb (rnd (drawn g))) ex) eqn:e.
  - apply IH in h. exact h.
  - inversion h; subst. cbn. split; [rewrite <- existsb_in, e; discriminate|auto].
Qed.
Lemma retry_err : forall n ex g, match retry rnd n ex g with Generated _ | Running => True | _ => False end.
Proof. induction n as [|n IH]; cbn [retry draw]; intros ex g; [exact Logic.I|]. destruct (existsb _ ex); [apply IH|exact Logic.I]. Qed.

Lemma unused_ok g k g' : getUnusedKey rnd fuel g = Generated (k, g') -> ~ In k (used g) /\ used g' = k :: used g /\ asg g' = asg g.
Proof.
  unfold getUnusedKey. destruct (retry rnd fuel (used g) g) as [[v g1]| | | |] eqn:e; cbn; intros h; try discriminate.
  apply retry_ok in e. destruct e as (h1 & h2 & h3). inversion h; subst. cbn. rewrite h2. auto.
Qed.
Lemma unused_err g : match getUnusedKey rnd fuel g with Generated _ | Running => True | _ => False end.
Proof. unfold getUnusedKey. pose proof (retry_err fuel (used g) g). destruct (retry rnd fuel (used g) g) as [[v g1]| | | |]; cbn; tauto. Qed.

(** A set of key variables with the original assignment. *)
Variable a : Assignment.
Variable iskey : Z -> Prop.

Record ginv (g : gstate) : Prop := mkGinv {
  gi_ext : extends a (asg g);
  gi_used : forall x k, iskey x -> asg g x = Some k -> In k (used g);
  gi_inj : forall x y k, iskey x -> iskey y -> x <> y -> asg g x = Some k -> asg g y = Some k -> a x = Some k /\ a y = Some k
}.

Lemma put_eq {A} (m : Z -> option A) k v : put m k v k = Some v. Proof. unfold put. rewrite Z.eqb_refl. reflexivity. Qed.
Lemma put_neq {A} (m : Z -> option A) k v x : x <> k -> put m k v x = m x. Proof. unfold put. destruct (Z.eqb_spec x k); [contradiction|reflexivity]. Qed.

Lemma ginv_same g d : ginv g -> ginv (mkG d (used g) (asg g)).
Proof. intros [h1 h2 h3]. split; cbn; assumption. Qed.

(** A fresh key for an unbound key variable. *)
Lemma ginv_fresh g d x k : ginv g -> iskey x -> asg g x = None -> ~ In k (used g) -> ginv (mkG d (k :: used g) (put (asg g) x k)).
Proof.
  intros [h1 h2 h3] hx hn hk. split; cbn.
  - intros y v hy. destruct (Z.eq_dec y x) as [->|e]; [apply h1 in hy; congruence|]. rewrite put_neq by exact e. apply h1, hy.
  - intros y v hy hv. destruct (Z.eq_dec y x) as [->|e]; [rewrite put_eq in hv; left; congruence|]. rewrite put_neq in hv by exact e. right. apply (h2 y); assumption.
  - intros y z v hy hz hyz h4 h5.
    destruct (Z.eq_dec y x) as [->|e1], (Z.eq_dec z x) as [->|e2]; [contradiction| | |].
    + rewrite put_eq in h4. rewrite put_neq in h5 by exact e2. exfalso. apply hk. injection h4 as ->. apply (h2 z); assumption.
    + rewrite put_eq in h5. rewrite put_neq in h4 by exact e1. exfalso. apply hk. injection h5 as ->. apply (h2 y); assumption.
    + rewrite put_neq in h4 by exact e1. rewrite put_neq in h5 by exact e2. apply (h3 y z); assumption.
Qed.
(** A value for an unbound variable that is not a key variable. *)
Lemma ginv_value g d x v : ginv g -> ~ iskey x -> asg g x = None -> ginv (mkG d (used g) (put (asg g) x v)).
Proof.
  intros [h1 h2 h3] hx hn. assert (hne : forall y, iskey y -> y <> x) by (intros y hy e; subst; contradiction). split; cbn.
  - intros y w hy. destruct (Z.eq_dec y x) as [->|e]; [apply h1 in hy; congruence|]. rewrite put_neq by exact e. apply h1, hy.
  - intros y w hy hw. rewrite put_neq in hw by (apply hne; exact hy). apply (h2 y); assumption.
  - intros y z w hy hz hyz h4 h5. rewrite put_neq in h4, h5 by (apply hne; assumption). apply (h3 y z); assumption.
Qed.

Lemma getKey_ok x g k g' : iskey x -> ginv g -> getKey rnd fuel x g = Generated (k, g') -> ginv g' /\ grows g g' /\ asg g' x = Some k /\ (forall y, y <> x -> asg g' y = asg g y).
Proof.
  intros hx hi. unfold getKey. destruct (asg g x) as [k0|] eqn:e.
  - intros h. inversion h; subst. split; [exact hi|]. split; [apply grows_refl|]. auto.
  - destruct (getUnusedKey rnd fuel g) as [[v g1]| | | |] eqn:eu; cbn; intros h; try discriminate. inversion h; subst.
    apply unused_ok in eu. destruct eu as (h1 & h2 & h3). rewrite h2, h3. split; [apply ginv_fresh; assumption|]. split.
    + split; cbn; [intros y v hy; destruct (Z.eq_dec y x) as [->|e2]; [congruence|rewrite put_neq by exact e2; exact hy]|apply incl_tl, incl_refl].
    + cbn. split; [apply put_eq|]. intros y hy. apply put_neq. exact hy.
Qed.
Lemma getKey_err x g : match getKey rnd fuel x g with Generated _ | Running => True | _ => False end.
Proof. unfold getKey. destruct (asg g x); [exact Logic.I|]. pose proof (unused_err g). destruct (getUnusedKey rnd fuel g) as [[v g1]| | | |]; cbn; tauto. Qed.

(** The new value *)
Lemma pick_new_ok con g v g' : (asg g (c_new con) = None -> ~ iskey (c_new con)) -> ginv g -> pick_new rnd fuel con g = Generated (v, g') ->
  ginv g' /\ grows g g' /\ asg g' (c_new con) = Some v /\ fits_value (c_config con) v /\ (forall y, y <> c_new con -> asg g' y = asg g y).
Proof.
  intros hk hi. unfold pick_new. destruct (asg g (c_new con)) as [w|] eqn:e.
  - destruct (_ || _) eqn:ec; [discriminate|]. intros h. inversion h; subst. split; [exact hi|]. split; [apply grows_refl|]. split; [exact e|]. split; [|auto]. split.
    + intros hz. rewrite hz in ec. destruct (Z.eqb_spec v 0); [assumption|]. cbn in ec. discriminate.
    + intros hz. rewrite hz in ec. destruct (Z.eqb_spec v 0); [cbn in ec; discriminate|assumption].
  - specialize (hk eq_refl).
    destruct (NewValueMustBeZero (c_config con)) eqn:ez.
    + cbn. intros h. inversion h; subst. cbn. split; [apply ginv_value; assumption|]. split.
      * split; cbn; [intros y w hy; destruct (Z.eq_dec y (c_new con)) as [->|e2]; [congruence|rewrite put_neq by exact e2; exact hy]|apply incl_refl].
      * split; [apply put_eq|]. split; [|intros y hy; apply put_neq; exact hy]. split; [reflexivity|]. rewrite zero_xor, ez. discriminate.
    + rewrite zero_xor, ez. cbn [negb]. unfold randValueButNot. destruct (retry rnd fuel [0] g) as [[w g1]| | | |] eqn:er; cbn; intros h; try discriminate.
      inversion h; subst. apply retry_ok in er. destruct er as (h1 & h2 & h3). rewrite h2, h3. split; [apply ginv_value; assumption|]. split.
      * split; cbn; [intros y u hy; destruct (Z.eq_dec y (c_new con)) as [->|e2]; [congruence|rewrite put_neq by exact e2; exact hy]|apply incl_refl].
      * cbn. split; [apply put_eq|]. split; [|intros y hy; apply put_neq; exact hy]. split; [rewrite ez; discriminate|]. intros _ ->. apply h1. left. reflexivity.
Qed.
Lemma pick_new_err con g : match pick_new rnd fuel con g with
  | Generated _ | Running => True
  | ErrUnsatisfiable => exists w, asg g (c_new con) = Some w /\ ~ fits_value (c_config con) w
  | _ => False end.
Proof.
  unfold pick_new. destruct (asg g (c_new con)) as [w|].
  - destruct (_ || _) eqn:ec; [|exact Logic.I]. exists w. split; [reflexivity|]. intros [h1 h2]. rewrite zero_xor in *.
    destruct (NewValueMustBeZero (c_config con)); cbn in *; [rewrite (h1 eq_refl) in ec; discriminate|].
    destruct (Z.eqb_spec w 0); [exact (h2 eq_refl e)|discriminate].
  - rewrite zero_xor. destruct (NewValueMustBeZero (c_config con)); cbn; [exact Logic.I|]. unfold randValueButNot. pose proof (retry_err fuel [0] g). destruct (retry rnd fuel [0] g) as [[v g1]| | | |]; cbn; tauto.
Qed.

(** Original and current values *)
Lemma pick_values_ok s new g o c g' : fits_value s new -> pick_values rnd fuel s new g = Generated (o, c, g') ->
  GetStorageStatus o c new = s /\ used g' = used g /\ asg g' = asg g.
Proof.
  intros [f1 f2]. unfold pick_values, randValueButNot. destruct s; cbn in f1, f2;
    repeat match goal with
    | |- context [retry ?r ?n ?e ?x] => let E := fresh "E" in destruct (retry r n e x) as [[? ?]| | | |] eqn:E; cbn [gbind]; try (intros; discriminate); apply retry_ok in E; cbn [In] in E; destruct E as (? & ? & ?)
    end; intros h; inversion h; subst; (split; [|split; congruence]); unfold GetStorageStatus;
    try specialize (f1 eq_refl); try specialize (f2 eq_refl); subst; cases_eqb; first [reflexivity|subst; try tauto; try lia].
Qed.
Lemma pick_values_err s new g : match pick_values rnd fuel s new g with Generated _ | Running => True | _ => False end.
Proof.
  unfold pick_values, randValueButNot. destruct s; try exact Logic.I;
    repeat match goal with
    | |- context [retry ?r ?n ?e ?x] => let E := fresh "E" in pose proof (retry_err n e x) as E; destruct (retry r n e x) as [[? ?]| | | |]; cbn [gbind]; try exact Logic.I; try contradiction
    end.
Qed.

(** The configurations *)
Definition config_done (s : storage) (g : gstate) (con : config) : Prop :=
  exists k v, asg g (c_key con) = Some k /\ asg g (c_new con) = Some v /\ s_original s k <> None /\
    GetStorageStatus (read (s_original s) k) (read (s_current s) k) v = c_config con.

Lemma read_put m k v : read (put m k v) k = v. Proof. unfold read. rewrite put_eq. reflexivity. Qed.
Lemma read_other m k v x : x <> k -> read (put m k v) x = read m x. Proof. intros h. unfold read. rewrite put_neq by exact h. reflexivity. Qed.

Lemma configs_ok : forall l s g s' g',
  (forall con, In con l -> iskey (c_key con)) ->
  (forall con, In con l -> a (c_new con) = None -> ~ iskey (c_new con)) ->
  ginv g -> (forall k, s_warm s k = false) ->
  configs rnd fuel l s g = Generated (s', g') ->
  ginv g' /\ grows g g' /\ (forall k, s_warm s' k = false) /\
  ( (forall c d, In c l -> In d l -> c_key c = c_key d -> c = d) -> NoDup l ->
    (forall c d k, In c l -> In d l -> c_key c <> c_key d -> a (c_key c) = Some k -> a (c_key d) = Some k -> False) ->
    forall con, In con l -> config_done s' g' con) /\
  (forall k, (forall con, In con l -> asg g' (c_key con) <> Some k) -> s_original s' k = s_original s k /\ s_current s' k = s_current s k).
Proof.
  induction l as [|con l IH]; intros s g s' g' hk hv hi hw; cbn [configs].
  - intros h. inversion h; subst. split; [exact hi|]. split; [apply grows_refl|]. split; [exact hw|]. split; [intros _ _ _ con []|auto].
  - destruct (getKey rnd fuel (c_key con) g) as [[key g1]| | | |] eqn:e1; cbn [gbind]; try discriminate.
    destruct (getKey_ok _ _ _ _ (hk con (or_introl eq_refl)) hi e1) as (hi1 & hg1 & hkey & hoth1).
    destruct (pick_new rnd fuel con g1) as [[new g2]| | | |] eqn:e2; cbn [gbind]; try discriminate.
    assert (hnk : asg g1 (c_new con) = None -> ~ iskey (c_new con)).
    { intros hn. apply hv; [left; reflexivity|]. destruct (a (c_new con)) as [w|] eqn:ea; [|reflexivity]. apply (gi_ext _ hi1) in ea. congruence. }
    destruct (pick_new_ok _ _ _ _ hnk hi1 e2) as (hi2 & hg2 & hnew & hfit & hoth2).
    destruct (pick_values rnd fuel (c_config con) new g2) as [[[org cur] g3]| | | |] eqn:e3; cbn [gbind]; try discriminate.
    destruct (pick_values_ok _ _ _ _ _ _ hfit e3) as (hst & hu & ha). intros h.
    assert (hi3 : ginv g3) by (destruct hi2 as [p1 p2 p3]; split; rewrite ?hu, ?ha; assumption).
    destruct (IH (SetValues key org cur s) g3 s' g' (fun c hc => hk c (or_intror hc)) (fun c hc => hv c (or_intror hc)) hi3 hw h) as (hi4 & hg4 & hw4 & hd & hf).
    assert (hg3 : grows g g3).
    { eapply grows_trans; [exact hg1|]. eapply grows_trans; [exact hg2|]. split; rewrite ?hu, ?ha; [intros x v hx; exact hx|apply incl_refl]. }
    split; [exact hi4|]. split; [eapply grows_trans; eassumption|]. split; [exact hw4|]. split.
    + intros huniq hnd hsep c [<-|hc].
      * (* the first configuration is not overwritten *)
        assert (hkey' : asg g' (c_key con) = Some key) by (apply hg4; rewrite ha; apply hg2; exact hkey).
        assert (hnew' : asg g' (c_new con) = Some new) by (apply hg4; rewrite ha; exact hnew).
        destruct (hf key) as [h1 h2].
        { intros d hd2 hd3. inversion hnd as [|? ? hn1 hn2]; subst.
          assert (hne : c_key con <> c_key d) by (intros ee; apply hn1; rewrite (huniq con d (or_introl eq_refl) (or_intror hd2) ee); exact hd2).
          destruct (gi_inj _ hi4 (c_key con) (c_key d) key (hk _ (or_introl eq_refl)) (hk _ (or_intror hd2)) hne hkey' hd3) as [q1 q2].
          apply (hsep con d key (or_introl eq_refl) (or_intror hd2) hne q1 q2). }
        exists key, new. split; [exact hkey'|]. split; [exact hnew'|]. unfold read. rewrite h1, h2. cbn [SetValues s_original s_current]. rewrite !put_eq. split; [discriminate|exact hst].
      * inversion hnd; subst. apply hd; try assumption; [intros c1 d1 q1 q2; apply huniq; right; assumption|].
        intros c1 d1 k1 q1 q2. apply hsep; right; assumption.
    + intros k hnk'. destruct (hf k) as [h1 h2]; [intros c hc; apply hnk'; right; exact hc|]. rewrite h1, h2. cbn [SetValues s_original s_current].
      assert (hne : k <> key). { intros ->. apply (hnk' con (or_introl eq_refl)). apply hg4. rewrite ha. apply hg2. exact hkey. }
      rewrite !put_neq by exact hne. auto.
Qed.

(** Errors of the configurations: a variable without a possible value. *)
Definition origin (cs : list config) (g : gstate) : Prop :=
  forall y w, asg g y = Some w -> a y = Some w \/ iskey y \/ exists con, In con cs /\ c_new con = y /\ fits_value (c_config con) w.

Lemma configs_err : forall l done s g,
  (forall con, In con (done ++ l) -> iskey (c_key con)) ->
  (forall con, In con (done ++ l) -> a (c_new con) = None -> ~ iskey (c_new con)) ->
  ginv g -> origin done g ->
  match configs rnd fuel l s g with
  | Generated _ | Running => True
  | ErrUnsatisfiable => exists con, In con (done ++ l) /\ forall w, (forall u, a (c_new con) = Some u -> u = w) ->
      exists con', In con' (done ++ l) /\ c_new con' = c_new con /\ ~ fits_value (c_config con') w
  | _ => False
  end.
Proof.
  induction l as [|con l IH]; intros done s g hk hv hi ho; cbn [configs]; [exact Logic.I|].
  assert (hin : In con (done ++ con :: l)) by (apply in_or_app; right; left; reflexivity).
  pose proof (getKey_err (c_key con) g) as he1. destruct (getKey rnd fuel (c_key con) g) as [[key g1]| | | |] eqn:e1; cbn [gbind]; try tauto.
  destruct (getKey_ok _ _ _ _ (hk con hin) hi e1) as (hi1 & hg1 & hkey & hoth1).
  assert (ho1 : origin done g1).
  { intros y w hy. destruct (Z.eq_dec y (c_key con)) as [->|e]; [right; left; apply hk; exact hin|]. rewrite hoth1 in hy by exact e. apply ho. exact hy. }
  pose proof (pick_new_err con g1) as he2. destruct (pick_new rnd fuel con g1) as [[new g2]| | | |] eqn:e2; cbn [gbind]; try tauto.
  - assert (hnk : asg g1 (c_new con) = None -> ~ iskey (c_new con)).
    { intros hn. apply hv; [exact hin|]. destruct (a (c_new con)) as [w|] eqn:ea; [|reflexivity]. apply (gi_ext _ hi1) in ea. congruence. }
    destruct (pick_new_ok _ _ _ _ hnk hi1 e2) as (hi2 & hg2 & hnew & hfit & hoth2).
    pose proof (pick_values_err (c_config con) new g2) as he3. destruct (pick_values rnd fuel (c_config con) new g2) as [[[org cur] g3]| | | |] eqn:e3; cbn [gbind]; try tauto.
    destruct (pick_values_ok _ _ _ _ _ _ hfit e3) as (hst & hu & ha).
    assert (hi3 : ginv g3) by (destruct hi2 as [p1 p2 p3]; split; rewrite ?hu, ?ha; assumption).
    assert (ho3 : origin (done ++ [con]) g3).
    { intros y w hy. rewrite ha in hy. destruct (Z.eq_dec y (c_new con)) as [->|e].
      - right. right. exists con. split; [apply in_or_app; right; left; reflexivity|]. split; [reflexivity|]. replace w with new by congruence. exact hfit.
      - rewrite hoth2 in hy by exact e. destruct (ho1 y w hy) as [h|[h|(d & h1 & h2)]]; [left; exact h|right; left; exact h|].
        right. right. exists d. split; [apply in_or_app; left; exact h1|exact h2]. }
    specialize (IH (done ++ [con]) (SetValues key org cur s) g3). rewrite <- app_assoc in IH. cbn [app] in IH. apply IH; assumption.
  - destruct he2 as (w & hw & hnf). exists con. split; [exact hin|]. intros u hu.
    destruct (a (c_new con)) as [w0|] eqn:ea.
    + specialize (hu _ eq_refl). subst u. apply (gi_ext _ hi1) in ea. exists con. split; [exact hin|]. split; [reflexivity|]. congruence.
    + destruct (ho1 _ _ hw) as [h|[h|(d & h1 & h2 & h3)]]; [congruence|destruct (hv con hin ea h)|].
      assert (hdin : In d (done ++ con :: l)) by (apply in_or_app; left; exact h1).
      assert (hdec : fits_value (c_config con) u \/ ~ fits_value (c_config con) u).
      { unfold fits_value. rewrite zero_xor. destruct (NewValueMustBeZero (c_config con)); cbn; destruct (Z.eq_dec u 0) as [eu|eu].
        - left. split; [auto|discriminate].
        - right. intros [q _]. apply eu, q. reflexivity.
        - right. intros [_ q]. apply q; [reflexivity|exact eu].
        - left. split; [discriminate|auto]. }
      destruct hdec as [hdec|hdec]; [|exists con; auto].
      exists d. split; [exact hdin|]. split; [exact h2|]. intros hdu. apply hnf.
      unfold fits_value in *. rewrite zero_xor in *. destruct (NewValueMustBeZero (c_config con)), (NewValueMustBeZero (c_config d)); cbn in *; tauto.
Qed.

(** The warm/cold constraints *)
Lemma set_warm_vals k w s : s_original (SetWarm k w s) = s_original s /\ s_current (SetWarm k w s) = s_current s.
Proof. unfold SetWarm. destruct w; auto. Qed.
Lemma set_warm_warm k w s x : s_warm (SetWarm k w s) x = (w && (x =? k)) || s_warm s x.
Proof. unfold SetWarm. destruct w; cbn; [destruct (x =? k); reflexivity|reflexivity]. Qed.

Lemma warms_ok : forall l s g s' g', (forall con, In con l -> iskey (wc_key con)) -> ginv g ->
  warms rnd fuel l s g = Generated (s', g') ->
  ginv g' /\ grows g g' /\
  (forall k, s_original s k <> None -> s_original s' k = s_original s k /\ s_current s' k = s_current s k) /\
  (forall con, In con l -> exists k, asg g' (wc_key con) = Some k /\ (wc_warm con = true -> s_warm s' k = true)) /\
  (forall k, s_warm s k = true -> s_warm s' k = true) /\
  (forall k, s_warm s' k = true -> s_warm s k = true \/ exists con, In con l /\ wc_warm con = true /\ asg g' (wc_key con) = Some k).
Proof.
  induction l as [|con l IH]; intros s g s' g' hk hi; cbn [warms].
  - intros h. inversion h; subst. split; [exact hi|]. split; [apply grows_refl|]. split; [auto|]. split; [intros con []|]. split; auto.
  - destruct (getKey rnd fuel (wc_key con) g) as [[key g1]| | | |] eqn:e1; cbn [gbind]; try discriminate.
    destruct (getKey_ok _ _ _ _ (hk con (or_introl eq_refl)) hi e1) as (hi1 & hg1 & hkey & hoth1).
    set (sg := if IsInOriginal key s then (s, g1) else _). 
    assert (hsg : exists s1 g2, sg = (s1, g2) /\ ginv g2 /\ grows g1 g2 /\ s_warm s1 = s_warm s /\ (forall k, s_original s k <> None -> s_original s1 k = s_original s k /\ s_current s1 k = s_current s k)).
    { unfold sg. destruct (IsInOriginal key s) eqn:ei.
      - exists s, g1. split; [reflexivity|]. split; [exact hi1|]. split; [apply grows_refl|]. auto.
      - cbn [draw]. eexists _, _. split; [reflexivity|]. split; [apply (ginv_same _ _ hi1)|]. split; [split; [intros x v hx; exact hx|apply incl_refl]|]. split; [reflexivity|].
        intros k hko. cbn [SetValues s_original s_current]. assert (k <> key) by (intros ->; unfold IsInOriginal in ei; destruct (s_original s key); [discriminate|congruence]).
        rewrite !put_neq by assumption. auto. }
    destruct hsg as (s1 & g2 & es & hi2 & hg2 & hw1 & hpres). rewrite es. intros h.
    destruct (IH _ _ _ _ (fun c hc => hk c (or_intror hc)) hi2 h) as (hi3 & hg3 & h3 & h4 & h5 & h6).
    destruct (set_warm_vals key (wc_warm con) s1) as [hv1 hv2].
    assert (hkey' : asg g' (wc_key con) = Some key) by (apply hg3, hg2; exact hkey).
    split; [exact hi3|]. split; [eapply grows_trans; [exact hg1|]; eapply grows_trans; eassumption|].
    split; [|split; [|split]].
    + intros k hko. destruct (hpres k hko) as [q1 q2]. specialize (h3 k). rewrite hv1, hv2 in h3. destruct h3 as [q3 q4]; [rewrite q1; exact hko|]. split; congruence.
    + intros c [<-|hc]; [|apply h4; exact hc]. exists key. split; [exact hkey'|]. intros hw. apply h5. rewrite set_warm_warm, hw, Z.eqb_refl. reflexivity.
    + intros k hkw. apply h5. rewrite set_warm_warm, hw1, hkw. apply orb_true_r.
    + intros k hkw. destruct (h6 k hkw) as [q|(c & q1 & q2 & q3)].
      * rewrite set_warm_warm, hw1 in q. apply orb_true_iff in q. destruct q as [q|q]; [|left; exact q]. right. exists con. split; [left; reflexivity|].
        apply andb_true_iff in q. destruct q as [q1 q2]. split; [exact q1|]. apply Z.eqb_eq in q2. subst. exact hkey'.
      * right. exists c. split; [right; exact q1|]. auto.
Qed.
Lemma warms_err : forall l s g, match warms rnd fuel l s g with Generated _ | Running => True | _ => False end.
Proof.
  induction l as [|con l IH]; intros s g; cbn [warms]; [exact Logic.I|]. pose proof (getKey_err (wc_key con) g) as he.
  destruct (getKey rnd fuel (wc_key con) g) as [[key g1]| | | |]; cbn [gbind]; try tauto. destruct (if IsInOriginal key s then _ else _) as [s1 g2]. apply IH.
Qed.

(** The additional entries do not touch keys in use. *)
Lemma extras_ok : forall n s g s' g', extras rnd fuel n s g = Generated (s', g') ->
  asg g' = asg g /\ forall k, In k (used g) -> s_original s' k = s_original s k /\ s_current s' k = s_current s k /\ s_warm s' k = s_warm s k.
Proof.
  induction n as [|n IH]; intros s g s' g'; cbn [extras].
  - intros h. inversion h; subst. auto.
  - destruct (getUnusedKey rnd fuel g) as [[key g1]| | | |] eqn:e; cbn [gbind draw]; try discriminate.
    destruct (unused_ok _ _ _ e) as (h1 & h2 & h3). intros h. apply IH in h. cbn [asg used] in h. destruct h as [q1 q2]. split; [congruence|].
    intros k hk. destruct (q2 k) as (r1 & r2 & r3); [rewrite h2; right; exact hk|].
    rewrite r1, r2, r3, (proj1 (set_warm_vals _ _ _)), (proj2 (set_warm_vals _ _ _)), set_warm_warm. cbn [SetValues s_original s_current s_warm]. assert (k <> key) by (intros ->; contradiction).
    rewrite !put_neq by assumption. destruct (Z.eqb_spec k key); [contradiction|]. rewrite andb_false_r. auto.
Qed.
Lemma extras_err : forall n s g, match extras rnd fuel n s g with Generated _ | Running => True | _ => False end.
Proof.
  induction n as [|n IH]; intros s g; cbn [extras]; [exact Logic.I|]. pose proof (unused_err g) as he.
  destruct (getUnusedKey rnd fuel g) as [[key g1]| | | |]; cbn [gbind draw]; try tauto. apply IH.
Qed.

Lemma bound_keys_in keys x k : In x keys -> a x = Some k -> In k (bound_keys a keys).
Proof. intros h1 h2. unfold bound_keys. apply in_flat_map. exists x. split; [exact h1|]. rewrite h2. left. reflexivity. Qed.

End Gen.

Section Top.
Variables (rnd : nat -> Z) (fuel : nat) (a : Assignment) (qs : list storage_request).
Let g := storage_generator qs.
Let cfg := sort config_Less (g_cfg g).
Let wcs := sort warm_Less (g_warm g).
Let iskey (x : Z) : Prop := exists q, In q qs /\ key_of q = x.
Let g0 := mkG 0 (bound_keys a (map c_key cfg) ++ bound_keys a (map wc_key wcs)) a.

Lemma cfg_in s k v : In (mkConfig s k v) cfg <-> In (Config s k v) qs.
Proof. unfold cfg. rewrite sort_in. apply generator_lists. Qed.
Lemma wcs_warm k : In (mkWarm k true) wcs <-> In (Warm k) qs.
Proof. unfold wcs. rewrite sort_in. apply generator_lists. Qed.
Lemma wcs_cold k : In (mkWarm k false) wcs <-> In (Cold k) qs.
Proof. unfold wcs. rewrite sort_in. apply generator_lists. Qed.
Lemma cfg_key con : In con cfg -> iskey (c_key con).
Proof. destruct con as [s k v]. intros h. apply cfg_in in h. exists (Config s k v). auto. Qed.
Lemma wcs_key con : In con wcs -> iskey (wc_key con).
Proof. destruct con as [k [|]]; intros h; [apply wcs_warm in h; exists (Warm k)|apply wcs_cold in h; exists (Cold k)]; auto. Qed.

Lemma ginv0 : ginv a iskey g0.
Proof.
  split; cbn; [intros x v h; exact h| |auto]. intros x k (q & h1 & h2) h3. apply in_or_app. destruct q as [s y v|y|y]; cbn in h2; subst y.
  - left. apply (bound_keys_in a _ x); [|exact h3]. apply in_map_iff. exists (mkConfig s x v). split; [reflexivity|]. apply cfg_in. exact h1.
  - right. apply (bound_keys_in a _ x); [|exact h3]. apply in_map_iff. exists (mkWarm x true). split; [reflexivity|]. apply wcs_warm. exact h1.
  - right. apply (bound_keys_in a _ x); [|exact h3]. apply in_map_iff. exists (mkWarm x false). split; [reflexivity|]. apply wcs_cold. exact h1.
Qed.

Theorem storage_generate_sound st b : one_config qs -> separate a qs -> values_not_keys a qs ->
  StorageGenerate rnd fuel a g = Generated (st, b) -> extends a b /\ Forall (storage_fulfils b st) qs.
Proof.
  intros h1c [hsep1 hsep2] hvk. unfold StorageGenerate. fold cfg wcs.
  destruct (neighbours config_conflict cfg); [discriminate|]. destruct (neighbours warm_conflict wcs) eqn:enw; [discriminate|].
  change (mkG 0 (bound_keys a (map c_key cfg) ++ bound_keys a (map wc_key wcs)) a) with g0.
  assert (hvk' : forall con, In con cfg -> a (c_new con) = None -> ~ iskey (c_new con)).
  { intros [s k v] hc hn (q & q1 & q2). apply cfg_in in hc. cbn in *. apply (hvk s k v q hc hn q1 q2). }
  destruct (configs rnd fuel cfg empty_storage g0) as [[s1 g1]| | | |] eqn:e1; cbn [gbind]; try discriminate.
  destruct (configs_ok rnd fuel a iskey cfg empty_storage g0 s1 g1 cfg_key hvk' ginv0 (fun _ => eq_refl) e1) as (hi1 & hg1 & hw1 & hd & _).
  destruct (warms rnd fuel wcs s1 g1) as [[s2 g2]| | | |] eqn:e2; cbn [gbind draw]; try discriminate.
  destruct (warms_ok rnd fuel a iskey wcs _ _ _ _ wcs_key hi1 e2) as (hi2 & hg2 & hpres & hwarm & hmono & hcold).
  destruct (extras rnd fuel _ s2 _) as [[s3 g3]| | | |] eqn:e3; cbn [gbind]; try discriminate.
  apply extras_ok in e3. cbn [asg used] in e3. destruct e3 as [ha hx]. intros h. inversion h; subst. rewrite ha.
  assert (hext : extends (asg g1) (asg g2)) by apply hg2.
  split; [apply hi2|]. apply Forall_forall. intros q hq.
  assert (hd' : forall con, In con cfg -> config_done s1 g1 con).
  { apply hd.
    - intros [s k v] [s' k' v'] p1 p2 e. cbn in e. subst k'. apply cfg_in in p1, p2. destruct (h1c _ _ _ _ _ p1 p2). subst. reflexivity.
    - apply sort_nodup. apply generator_lists.
    - intros [s k v] [s' k' v'] key p1 p2. apply cfg_in in p1, p2. cbn. apply (hsep1 _ _ _ _ _ _ key p1 p2). }
  destruct q as [s x y|x|x]; cbn [storage_fulfils].
  - destruct (hd' (mkConfig s x y) (proj2 (cfg_in s x y) hq)) as (k & v & q1 & q2 & q3 & q4). cbn in q1, q2, q4.
    exists k, v. split; [apply hext; exact q1|]. split; [apply hext; exact q2|].
    destruct (hpres k q3) as [r1 r2]. destruct (hx k) as (r3 & r4 & _).
    { apply (gi_used _ _ _ hi2 x); [exists (Config s x y); auto|apply hext; exact q1]. }
    unfold read in *. rewrite r3, r4, r1, r2. exact q4.
  - destruct (hwarm (mkWarm x true) (proj2 (wcs_warm x) hq)) as (k & q1 & q2). cbn in q1, q2. exists k. split; [exact q1|].
    destruct (hx k) as (_ & _ & r); [apply (gi_used _ _ _ hi2 x); [exists (Warm x); auto|exact q1]|]. rewrite r. apply q2. reflexivity.
  - destruct (hwarm (mkWarm x false) (proj2 (wcs_cold x) hq)) as (k & q1 & _). cbn in q1. exists k. split; [exact q1|].
    destruct (hx k) as (_ & _ & r); [apply (gi_used _ _ _ hi2 x); [exists (Cold x); auto|exact q1]|]. rewrite r.
    destruct (s_warm s2 k) eqn:ek; [exfalso|reflexivity]. apply hcold in ek. destruct ek as [ek|([x' w] & q3 & q4 & q5)]; [congruence|]. cbn in q4, q5. subst w.
    destruct (Z.eq_dec x' x) as [->|hne].
    + apply (warm_adjacent x wcs); [unfold wcs; apply sort_ordered; [apply warm_less_tr|apply warm_less_as|apply warm_less_tr2]|apply sort_nodup; apply generator_lists|exact enw|exact q3|apply wcs_cold; exact hq].
    + apply wcs_warm in q3. assert (kx : iskey x) by (exists (Cold x); auto). assert (kx' : iskey x') by (exists (Warm x'); auto).
      destruct (gi_inj _ _ _ hi2 x' x k kx' kx hne q5 q1) as [r1 r2]. apply (hsep2 x' x k q3 hq hne r1 r2).
Qed.

Theorem storage_generate_error : values_not_keys a qs ->
  match StorageGenerate rnd fuel a g with
  | Generated _ | Running => True
  | ErrUnsatisfiable => storage_conflict a qs
  | ErrUnboundVariable | Panics => False
  end.
Proof.
  intros hvk. unfold StorageGenerate. fold cfg wcs.
  assert (hvk' : forall con, In con cfg -> a (c_new con) = None -> ~ iskey (c_new con)).
  { intros [s k v] hc hn (q & q1 & q2). apply cfg_in in hc. cbn in *. apply (hvk s k v q hc hn q1 q2). }
  destruct (neighbours config_conflict cfg) eqn:en1.
  { apply neighbours_true in en1. destruct en1 as ([s k v] & [s' k' v'] & h1 & h2 & h3). apply cfg_in in h1, h2. unfold config_conflict in h3. cbn in h3.
    apply andb_true_iff in h3. destruct h3 as [e h3]. apply Z.eqb_eq in e. subst k'. left. exists s, k, v, s', v'. split; [exact h1|]. split; [exact h2|].
    intros ee. inversion ee; subst. rewrite !Z.eqb_refl in h3. discriminate. }
  destruct (neighbours warm_conflict wcs) eqn:en2.
  { apply neighbours_true in en2. destruct en2 as ([k w] & [k' w'] & h1 & h2 & h3). unfold warm_conflict in h3. cbn in h3. apply andb_true_iff in h3. destruct h3 as [e h3]. apply Z.eqb_eq in e. subst k'.
    right. left. exists k. destruct w, w'; try discriminate; [split; [apply wcs_warm; exact h1|apply wcs_cold; exact h2]|split; [apply wcs_warm; exact h2|apply wcs_cold; exact h1]]. }
  change (mkG 0 (bound_keys a (map c_key cfg) ++ bound_keys a (map wc_key wcs)) a) with g0.
  pose proof (configs_err rnd fuel a iskey cfg [] empty_storage g0 cfg_key hvk' ginv0 (fun y w hy => or_introl hy)) as he.
  destruct (configs rnd fuel cfg empty_storage g0) as [[s1 g1]| | | |]; cbn [gbind]; try tauto.
  - pose proof (warms_err rnd fuel iskey wcs s1 g1) as hw. destruct (warms rnd fuel wcs s1 g1) as [[s2 g2]| | | |]; cbn [gbind draw]; try tauto.
    match goal with |- context [extras rnd fuel ?n ?s ?gg] => pose proof (extras_err rnd fuel n s gg) as hx; destruct (extras rnd fuel n s gg) as [[s3 g3]| | | |] end; cbn [gbind]; tauto.
  - right. right. destruct he as ([s x y] & h1 & h2). cbn in h1, h2. exists y. split; [exists s, x; apply cfg_in; exact h1|].
    intros w hw. destruct (h2 w hw) as ([s' x' y'] & q1 & q2 & q3). cbn in q1, q2, q3. subst y'. exists s', x'. split; [apply cfg_in; exact q1|].
    intros hp. apply q3, possible_fits. exact hp.
Qed.

End Top.
