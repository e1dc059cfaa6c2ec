(** Generated states. *)
From Verif Require Import Base Host GoStorage SpecEvm SpecRules ArithFacts MemFacts JumpFacts CtSolve SpecSolve CtSolveFacts CtGen SpecGen CtStackFacts CtStorageFacts CtTransientFacts
  CtCodeGen SpecCode CtCodeGenFacts CtCodeGenFacts2 CtContext SpecContext CtContextFacts CtBlockFacts CtAccounts SpecAccounts CtAccountsFacts CtAccountsFacts2 CtState SpecState CtStateFacts.
From Coq Require Import ZArith List Bool Lia Permutation Znumtheory.
Import ListNotations.
Open Scope Z_scope.

(** *** The lists of the generator *)
Definition gases : list state_request -> list constraint := part (fun q => match q with GasIs c => Some c | _ => None end).
Definition refunds : list state_request -> list constraint := part (fun q => match q with RefundIs c => Some c | _ => None end).
Lemma part_in {A} (f : state_request -> option A) qs y : In y (part f qs) <-> exists q, In q qs /\ f q = Some y.
Proof.
  induction qs as [|q qs ih]; cbn; [split; [intros []|intros (q & [] & _)]|]. split.
  - destruct (f q) eqn:e; [intros [<-|h]; [exists q; auto|]|intros h]; apply ih in h; destruct h as (r & h1 & h2); exists r; auto.
  - intros (r & [->|h1] & h2); [rewrite h2; left; reflexivity|]. assert (In y (part f qs)) as h by (apply ih; exists r; auto). destruct (f q); [right; exact h|exact h].
Qed.
Lemma add_new_in {A} (eqb : A -> A -> bool) x l y : (forall u v, eqb u v = true -> u = v) -> In y (add_new eqb x l) <-> In y l \/ x = y.
Proof.
  intros h. unfold add_new. destruct (existsb (eqb x) l) eqn:e.
  - split; [auto|]. intros [k|<-]; [exact k|]. apply existsb_exists in e. destruct e as (z & h1 & h2). apply h in h2. subst. exact h1.
  - rewrite in_app_iff. cbn. tauto.
Qed.
Lemma zeqb_eq u v : (u =? v) = true -> u = v. Proof. apply Z.eqb_eq. Qed.
Lemma pair_eqb_eq (u v : Z * Z) : (fst u =? fst v) && (snd u =? snd v) = true -> u = v.
Proof. destruct u, v. cbn. intros h. apply andb_prop in h. destruct h as [h1 h2]. apply Z.eqb_eq in h1, h2. congruence. Qed.
Lemma gen_parts : forall qs g, let g' := fold_left state_call qs g in
  gn_code g' = fold_left code_request_call (codes qs) (gn_code g) /\ gn_stack g' = fold_left stack_request_call (stacks qs) (gn_stack g) /\
  gn_storage g' = fold_left storage_request_call (storages qs) (gn_storage g) /\ gn_transient g' = fold_left transient_request_call (SpecState.transients qs) (gn_transient g) /\
  gn_accounts g' = fold_left account_call (accounts qs) (gn_accounts g) /\ gn_block g' = fold_left block_call (blocks qs) (gn_block g) /\
  gn_tx g' = fold_left blob_call (blobs qs) (gn_tx g) /\ gn_gas g' = fold_left range_add (gases qs) (gn_gas g) /\ gn_refund g' = fold_left range_add (refunds qs) (gn_refund g).
Proof.
  induction qs as [|q qs ih]; intros g; [cbn; repeat split|]. cbv zeta in *. cbn [fold_left]. specialize (ih (state_call g q)).
  destruct g. destruct q; try exact ih. destruct b; exact ih.
Qed.

Section Lists.
Context {A : Type}.
Variables (F : StateGenerator -> list A) (mk : A -> state_request) (eqb : A -> A -> bool).
Hypothesis heq : forall u v, eqb u v = true -> u = v.
Hypothesis hinj : forall u v, mk u = mk v -> u = v.
Hypothesis hF : forall g q, F (state_call g q) = F g /\ (forall y, q <> mk y) \/ exists y, q = mk y /\ F (state_call g q) = add_new eqb y (F g).
Lemma list_part : forall qs g y, In y (F (fold_left state_call qs g)) <-> In y (F g) \/ In (mk y) qs.
Proof.
  induction qs as [|q qs ih]; intros g y; cbn [fold_left In]; [tauto|]. rewrite ih. destruct (hF g q) as [[-> hn]|(z & -> & ->)].
  - specialize (hn y). tauto.
  - rewrite (add_new_in eqb z _ y heq). split; [intros [[h| ->]|h]; tauto|]. intros [h|[h|h]]; [tauto| |tauto]. apply hinj in h. subst. tauto.
Qed.
Lemma add_new_nodup (x : A) l : (forall u, eqb u u = true) -> NoDup l -> NoDup (add_new eqb x l).
Proof.
  intros hr h. unfold add_new. destruct (existsb (eqb x) l) eqn:e; [exact h|]. apply nodup_snoc'; [exact h|]. intros hin. assert (existsb (eqb x) l = true); [|congruence].
  apply existsb_exists. exists x. auto.
Qed.
Lemma list_nodup : (forall u, eqb u u = true) -> forall qs g, NoDup (F g) -> NoDup (F (fold_left state_call qs g)).
Proof.
  intros hr. induction qs as [|q qs ih]; intros g h; cbn [fold_left]; [exact h|]. apply ih. destruct (hF g q) as [[-> _]|(z & _ & ->)]; [exact h|apply add_new_nodup; assumption].
Qed.
End Lists.
Lemma gen_status qs y : In y (gn_status (state_generator qs)) <-> In (HasStatus y) qs.
Proof. unfold state_generator. assert (h := fun heq hinj hF => list_part gn_status HasStatus Z.eqb heq hinj hF qs NewStateGenerator y). rewrite h; clear h; [cbn; tauto|exact zeqb_eq|congruence|].
  intros g q; destruct g, q; try (left; split; [reflexivity|intros y' h; discriminate h]); try (right; eexists; split; reflexivity). destruct b; (left; split; [reflexivity|intros y' h; discriminate h]). Qed.
Lemma gen_readOnly qs y : In y (gn_readOnly (state_generator qs)) <-> In (InMode y) qs.
Proof. unfold state_generator. assert (h := fun heq hinj hF => list_part gn_readOnly InMode Bool.eqb heq hinj hF qs NewStateGenerator y). rewrite h; clear h; [cbn; tauto|exact eqb_prop|congruence|].
  intros g q; destruct g, q; try (left; split; [reflexivity|intros y' h; discriminate h]); try (right; eexists; split; reflexivity). destruct b; (left; split; [reflexivity|intros y' h; discriminate h]). Qed.
Lemma gen_pc qs y : In y (gn_pc (state_generator qs)) <-> In (PcIs y) qs.
Proof. unfold state_generator. assert (h := fun heq hinj hF => list_part gn_pc PcIs Z.eqb heq hinj hF qs NewStateGenerator y). rewrite h; clear h; [cbn; tauto|exact zeqb_eq|congruence|].
  intros g q; destruct g, q; try (left; split; [reflexivity|intros y' h; discriminate h]); try (right; eexists; split; reflexivity). destruct b; (left; split; [reflexivity|intros y' h; discriminate h]). Qed.
Lemma gen_pcVar qs y : In y (gn_pcVar (state_generator qs)) <-> In (PcVar y) qs.
Proof. unfold state_generator. assert (h := fun heq hinj hF => list_part gn_pcVar PcVar Z.eqb heq hinj hF qs NewStateGenerator y). rewrite h; clear h; [cbn; tauto|exact zeqb_eq|congruence|].
  intros g q; destruct g, q; try (left; split; [reflexivity|intros y' h; discriminate h]); try (right; eexists; split; reflexivity). destruct b; (left; split; [reflexivity|intros y' h; discriminate h]). Qed.
Lemma gen_self qs y : In y (gn_self (state_generator qs)) <-> In (SelfIs y) qs.
Proof. unfold state_generator. assert (h := fun heq hinj hF => list_part gn_self SelfIs Z.eqb heq hinj hF qs NewStateGenerator y). rewrite h; clear h; [cbn; tauto|exact zeqb_eq|congruence|].
  intros g q; destruct g, q; try (left; split; [reflexivity|intros y' h; discriminate h]); try (right; eexists; split; reflexivity). destruct b; (left; split; [reflexivity|intros y' h; discriminate h]). Qed.
Lemma gen_selfVar qs y : In y (gn_selfVar (state_generator qs)) <-> In (SelfVar y) qs.
Proof. unfold state_generator. assert (h := fun heq hinj hF => list_part gn_selfVar SelfVar Z.eqb heq hinj hF qs NewStateGenerator y). rewrite h; clear h; [cbn; tauto|exact zeqb_eq|congruence|].
  intros g q; destruct g, q; try (left; split; [reflexivity|intros y' h; discriminate h]); try (right; eexists; split; reflexivity). destruct b; (left; split; [reflexivity|intros y' h; discriminate h]). Qed.
Lemma gen_bindings qs x v : In (x, v) (gn_bindings (state_generator qs)) <-> In (Bind x v) qs.
Proof. unfold state_generator. assert (h := fun heq hinj hF => list_part gn_bindings (fun p => Bind (fst p) (snd p)) (fun p q => (fst p =? fst q) && (snd p =? snd q)) heq hinj hF qs NewStateGenerator (x, v)). rewrite h; clear h; [cbn; tauto|exact pair_eqb_eq| |].
  - intros [? ?] [? ?] h. cbn in h. congruence.
  - intros g q; destruct g, q; try (left; split; [reflexivity|intros y' h; discriminate h]); try (right; exists (x0, v0); split; reflexivity). destruct b; (left; split; [reflexivity|intros y' h; discriminate h]). Qed.
Lemma gen_destructed : forall qs g, (fst (gn_destructed (fold_left state_call qs g)) = true <-> fst (gn_destructed g) = true \/ In (IsDestructed true) qs) /\
  (snd (gn_destructed (fold_left state_call qs g)) = true <-> snd (gn_destructed g) = true \/ In (IsDestructed false) qs).
Proof.
  induction qs as [|q qs ih]; intros g; cbn [fold_left In]; [tauto|]. destruct (ih (state_call g q)) as [h1 h2]. rewrite h1, h2. destruct g as [? ? ? ? ? ? ? ? ? ? ? ? ? ? ? [d1 d2] ?].
  assert (hd : forall a b, (if Bool.eqb a b then IsDestructed a = IsDestructed b else IsDestructed a <> IsDestructed b)) by (intros [] []; cbn; congruence).
  destruct q; try (cbn; split; (split; [intros [k|k]; auto|intros [k|[k|k]]; [auto|discriminate k|auto]])).
  destruct b; cbn; split; (split; [intros [k|k]; auto|intros [k|[k|k]]; auto; try discriminate k]).
Qed.

Lemma nodup_status qs : NoDup (gn_status (state_generator qs)).
Proof. unfold state_generator. apply (list_nodup gn_status HasStatus Z.eqb); [|exact Z.eqb_refl|constructor].
  intros g q; destruct g, q; try (left; split; [reflexivity|intros y' h; discriminate h]); try (right; eexists; split; reflexivity). destruct b; (left; split; [reflexivity|intros y' h; discriminate h]). Qed.
Lemma nodup_readOnly qs : NoDup (gn_readOnly (state_generator qs)).
Proof. unfold state_generator. apply (list_nodup gn_readOnly InMode Bool.eqb); [|exact Bool.eqb_reflx|constructor].
  intros g q; destruct g, q; try (left; split; [reflexivity|intros y' h; discriminate h]); try (right; eexists; split; reflexivity). destruct b; (left; split; [reflexivity|intros y' h; discriminate h]). Qed.
Lemma nodup_pc qs : NoDup (gn_pc (state_generator qs)).
Proof. unfold state_generator. apply (list_nodup gn_pc PcIs Z.eqb); [|exact Z.eqb_refl|constructor].
  intros g q; destruct g, q; try (left; split; [reflexivity|intros y' h; discriminate h]); try (right; eexists; split; reflexivity). destruct b; (left; split; [reflexivity|intros y' h; discriminate h]). Qed.
Lemma nodup_self qs : NoDup (gn_self (state_generator qs)).
Proof. unfold state_generator. apply (list_nodup gn_self SelfIs Z.eqb); [|exact Z.eqb_refl|constructor].
  intros g q; destruct g, q; try (left; split; [reflexivity|intros y' h; discriminate h]); try (right; eexists; split; reflexivity). destruct b; (left; split; [reflexivity|intros y' h; discriminate h]). Qed.

(** *** The first part *)
Lemma enforce_spec : forall l a b, enforce l a = Generated b -> extends a b /\ (forall x v, In (x, v) l -> b x = Some v) /\ (forall x v, b x = Some v -> a x = Some v \/ In (x, v) l).
Proof.
  assert (H : forall l x v a b, (a x = None \/ a x = Some v) -> (extends (put a x v) b /\ (forall y w, In (y, w) l -> b y = Some w) /\ (forall y w, b y = Some w -> put a x v y = Some w \/ In (y, w) l)) ->
    extends a b /\ (forall y w, In (y, w) ((x, v) :: l) -> b y = Some w) /\ (forall y w, b y = Some w -> a y = Some w \/ In (y, w) ((x, v) :: l))).
  { intros l x v a b hx (h1 & h2 & h3). split; [|split].
    - intros y w hy. apply h1. unfold put. destruct (Z.eqb_spec y x); [subst; destruct hx; congruence|exact hy].
    - intros y w [e|h]; [injection e as <- <-; apply h1; apply CtStorageFacts.put_eq|apply h2; exact h].
    - intros y w hy. apply h3 in hy. unfold put in hy. cbn [In]. destruct (Z.eqb_spec y x); [|tauto]. destruct hy as [hy|hy]; [right; left; congruence|tauto]. }
  induction l as [|[x v] l ih]; intros a b e; cbn [enforce] in e; [injection e as <-; repeat split; [intros x v h; exact h|intros x v []|auto]|].
  destruct (a x) as [w|] eqn:ex.
  - destruct (Z.eqb_spec w v); [|discriminate]. subst. apply H; [right; exact ex|apply ih; exact e].
  - apply H; [left; exact ex|apply ih; exact e].
Qed.
Lemma status_spec r l s : pick_status r l = Generated s -> 0 <= s < 4 /\ forall t, In t l -> s = t.
Proof.
  unfold pick_status, NumStatusCodes. destruct l as [|t [|? ?]]; [| |discriminate].
  - intros e. injection e as <-. split; [apply Z.mod_pos_bound; lia|intros t []].
  - rewrite Z.geb_leb. destruct (Z.ltb_spec t 0), (Z.leb_spec 4 t); try discriminate. intros e. injection e as <-. split; [lia|intros u [<-|[]]; reflexivity].
Qed.
Lemma readOnly_spec r l s : pick_readOnly r l = Generated s -> forall t, In t l -> s = t.
Proof. unfold pick_readOnly. destruct l as [|t [|? ?]]; [intros _ ? []| |discriminate]. intros e. injection e as <-. intros u [<-|[]]. reflexivity. Qed.
Lemma pc_values_spec : forall l a vs vs', pc_values l a vs = Generated vs' ->
  (forall v, In v vs -> In v vs') /\ (forall x, In x l -> exists v, a x = Some v /\ In (v mod 2 ^ 16) vs') /\ (forall p, In p vs' -> In p vs \/ exists x v, In x l /\ a x = Some v /\ p = v mod 2 ^ 16).
Proof.
  induction l as [|x l ih]; intros a vs vs' e; cbn [pc_values] in e; [injection e as <-; repeat split; auto; intros x []|].
  destruct (a x) as [v|] eqn:ex; [|discriminate]. apply ih in e. destruct e as (h1 & h2 & h3). split; [|split].
  - intros w hw. apply h1. apply add_new_in; [exact zeqb_eq|auto].
  - intros y [<-|hy]; [|apply h2; exact hy]. exists v. split; [exact ex|]. apply h1. apply add_new_in; [exact zeqb_eq|auto].
  - intros p hp. apply h3 in hp. destruct hp as [hp|(y & w & h4 & h5 & h6)]; [|right; exists y, w; split; [right; exact h4|auto]]. apply add_new_in in hp; [|exact zeqb_eq]. destruct hp as [hp| <-]; [auto|]. right. exists x, v. split; [left; reflexivity|auto].
Qed.
Lemma pc_spec r code vs p : pick_pc r code vs = Generated p -> (forall v, In v vs -> 0 <= v < 2 ^ 16) -> 0 <= p < 2 ^ 16 /\ forall v, In v vs -> p = v.
Proof.
  unfold pick_pc. destruct vs as [|t [|? ?]]; [| |discriminate]; intros e h; injection e as <-.
  - split; [|intros v []]. destruct (_ >? 0); [apply Z.mod_pos_bound; lia|lia].
  - split; [apply h; left; reflexivity|intros v [<-|[]]; reflexivity].
Qed.
Lemma self_bindings_spec : forall l a o o', self_bindings l a o = Generated o' ->
  (forall B, o = Some B -> o' = Some B) /\ (forall x v, In x l -> a x = Some v -> o' = Some (NewAddress v)) /\
  (forall A, o' = Some A -> o = Some A \/ exists x v, a x = Some v /\ A = NewAddress v).
Proof.
  induction l as [|x l ih]; intros a o o' e; cbn [self_bindings] in e; [injection e as <-; repeat split; auto; intros x v []|].
  destruct (a x) as [v|] eqn:ex.
  - destruct o as [A|].
    + destruct (Z.eqb_spec (NewAddress v) A); [|discriminate]. subst. apply ih in e. destruct e as (h1 & h2 & h3). split; [exact h1|split; [|exact h3]].
      intros y w [<-|hy] hw; [assert (w = v) by congruence; subst; apply h1; reflexivity|apply (h2 y); assumption].
    + apply ih in e. destruct e as (h1 & h2 & h3). split; [discriminate|split].
      * intros y w [<-|hy] hw; [assert (w = v) by congruence; subst; apply h1; reflexivity|apply (h2 y); assumption].
      * intros A hA. destruct (h3 A hA) as [k|k]; [|auto]. right. exists x, v. split; [exact ex|congruence].
  - apply ih in e. destruct e as (h1 & h2 & h3). split; [exact h1|split; [|exact h3]]. intros y w [<-|hy] hw; [congruence|apply (h2 y); assumption].
Qed.
Lemma self_spec r l vars a A : pick_self r l vars a = Generated A ->
  (forall B, In B l -> A = B) /\ (forall x v, In x vars -> a x = Some v -> A = v mod 2 ^ 160) /\ (In A l \/ (exists x v, a x = Some v /\ A = v mod 2 ^ 160) \/ A = r mod 2 ^ 160).
Proof.
  unfold pick_self. destruct l as [|B [|? ?]]; [| |discriminate]; intros e; apply bind_gen in e; destruct e as (o & e1 & e); injection e as <-; apply self_bindings_spec in e1; destruct e1 as (h1 & h2 & h3).
  - split; [intros B []|split].
    + intros x v hx hv. rewrite (h2 x v hx hv). reflexivity.
    + right. destruct o as [A|]; [|right; reflexivity]. destruct (h3 A eq_refl) as [k|(x & v & k & ->)]; [discriminate|]. left. exists x, v. split; [exact k|reflexivity].
  - rewrite (h1 B eq_refl). split; [intros C [<-|[]]; reflexivity|split; [|left; left; reflexivity]]. intros x v hx hv. pose proof (h2 x v hx hv) as k. rewrite (h1 B eq_refl) in k. injection k as ->. reflexivity.
Qed.
Lemma assign_spec A : forall vars a x, assign_self A vars a x = if existsb (Z.eqb x) vars then Some A else a x.
Proof.
  unfold assign_self. induction vars as [|y vars ih]; intros a x; cbn [fold_left existsb]; [reflexivity|]. rewrite ih. unfold put. destruct (x =? y), (existsb (Z.eqb x) vars); reflexivity.
Qed.
Lemma destructed_spec r d b : pick_destructed r d = Generated b -> (fst d = true -> b = true) /\ (snd d = true -> b = false).
Proof. destruct d as [[|] [|]]; cbn; intros e; try discriminate; injection e as <-; split; congruence. Qed.
Lemma gas_spec r M cs v : 0 <= M < 2 ^ 62 -> proper r -> Forall (fun c => typed tInt c /\ bounds c) cs -> forall m, - 2 ^ 62 <= m <= M ->
  solved (RangeGenerate tInt r (range_solver m M cs)) = Generated v -> m <= v <= M /\ Forall (obeys v) cs.
Proof.
  intros hM hr hc m hm e. assert (h1 : in_type tInt m) by (unfold in_type, it_min, it_max, tInt; cbn -[Z.pow]; lia). assert (h2 : in_type tInt M) by (unfold in_type, it_min, it_max, tInt; cbn -[Z.pow]; lia).
  destruct (range_solver_correct tInt m M cs ltac:(split; [cbn; lia|right; reflexivity]) h1 h2 ltac:(eapply Forall_impl; [|exact hc]; cbn; tauto) ltac:(eapply Forall_impl; [|exact hc]; cbn; tauto)) as [[H _] _].
  specialize (H r hr). cbv beta in H. destruct (RangeGenerate _ _ _); cbn in e; try discriminate. injection e as <-. exact H.
Qed.

(** When they fail *)
Lemma enforce_err : forall l a, match enforce l a with Generated _ => True | ErrUnsatisfiable => forall b, extends a b -> (forall x v, In (x, v) l -> b x = Some v) -> False | _ => False end.
Proof.
  induction l as [|[x v] l ih]; intros a; cbn [enforce]; [exact Logic.I|].
  assert (H : (a x = None \/ a x = Some v) -> match enforce l (put a x v) with Generated _ => True | ErrUnsatisfiable => forall b, extends a b -> (forall y w, In (y, w) ((x, v) :: l) -> b y = Some w) -> False | _ => False end).
  { intros hx. specialize (ih (put a x v)). destruct (enforce l (put a x v)); try exact ih. intros b h1 h2. apply (ih b); [|intros y w h; apply h2; right; exact h].
    intros y w. unfold put. destruct (Z.eqb_spec y x); [intros k; injection k as <-; subst; apply h2; left; reflexivity|apply h1]. }
  destruct (a x) as [w|] eqn:ex; [|apply H; auto]. destruct (Z.eqb_spec w v); [subst; apply H; auto|]. intros b h1 h2. pose proof (h2 x v (or_introl eq_refl)) as k. rewrite (h1 x w ex) in k. congruence.
Qed.
Lemma two {A} (x y : A) l s : NoDup (x :: y :: l) -> (forall t, In t (x :: y :: l) -> s = t) -> False.
Proof. intros h k. inversion h as [|? ? hn _]; subst. apply hn. left. rewrite <- (k x), <- (k y); cbn; auto. Qed.
Lemma status_err r l : NoDup l -> match pick_status r l with Generated _ => True | ErrUnsatisfiable => forall s, 0 <= s < 4 -> (forall t, In t l -> s = t) -> False | _ => False end.
Proof.
  unfold pick_status, NumStatusCodes. destruct l as [|t [|t' l]]; intros h; [exact Logic.I| |].
  - rewrite Z.geb_leb. destruct (Z.ltb_spec t 0), (Z.leb_spec 4 t); cbn [orb]; try exact Logic.I; intros s hs k; specialize (k t (or_introl eq_refl)); lia.
  - intros s _ k. exact (two _ _ _ _ h k).
Qed.
Lemma readOnly_err r l : NoDup l -> match pick_readOnly r l with Generated _ => True | ErrUnsatisfiable => forall s, (forall t, In t l -> s = t) -> False | _ => False end.
Proof. unfold pick_readOnly. destruct l as [|t [|t' l]]; intros h; [exact Logic.I|exact Logic.I|]. intros s k. exact (two _ _ _ _ h k). Qed.
Lemma pc_values_err : forall l a vs, match pc_values l a vs with Generated _ => True | ErrUnboundVariable => exists x, In x l /\ a x = None | _ => False end.
Proof.
  induction l as [|x l ih]; intros a vs; cbn [pc_values]; [exact Logic.I|]. destruct (a x) as [v|] eqn:ex; [|exists x; split; [left; reflexivity|exact ex]].
  specialize (ih a (add_new Z.eqb (v mod 2 ^ 16) vs)). destruct (pc_values _ _ _); try exact ih. destruct ih as (y & h1 & h2). exists y. split; [right; exact h1|exact h2].
Qed.
Lemma pc_values_nodup : forall l a vs vs', NoDup vs -> pc_values l a vs = Generated vs' -> NoDup vs'.
Proof.
  induction l as [|x l ih]; intros a vs vs' h e; cbn [pc_values] in e; [injection e as <-; exact h|]. destruct (a x) as [v|]; [|discriminate].
  apply (ih _ _ _ (add_new_nodup Z.eqb (v mod 2 ^ 16) vs Z.eqb_refl h) e).
Qed.
Lemma pc_err r code l : NoDup l -> match pick_pc r code l with Generated _ => True | ErrUnsatisfiable => forall s, (forall t, In t l -> s = t) -> False | _ => False end.
Proof. unfold pick_pc. destruct l as [|t [|t' l]]; intros h; [exact Logic.I|exact Logic.I|]. intros s k. exact (two _ _ _ _ h k). Qed.
Lemma self_bindings_err : forall l a o, match self_bindings l a o with Generated _ => True
  | ErrUnsatisfiable => forall A, (forall B, o = Some B -> A = B) -> (forall x v, In x l -> a x = Some v -> A = v mod 2 ^ 160) -> False | _ => False end.
Proof.
  induction l as [|x l ih]; intros a o; cbn [self_bindings]; [exact Logic.I|]. destruct (a x) as [v|] eqn:ex.
  - destruct o as [B|].
    + destruct (Z.eqb_spec (NewAddress v) B) as [e|n].
      * specialize (ih a (Some B)). destruct (self_bindings _ _ _); try exact ih. intros A h1 h2. apply (ih A h1). intros y w hy. apply h2. right. exact hy.
      * intros A h1 h2. apply n. rewrite <- (h1 B eq_refl). symmetry. apply (h2 x v); [left; reflexivity|exact ex].
    + specialize (ih a (Some (NewAddress v))). destruct (self_bindings _ _ _); try exact ih. intros A h1 h2. apply (ih A).
      * intros B e. injection e as <-. apply (h2 x v); [left; reflexivity|exact ex].
      * intros y w hy. apply h2. right. exact hy.
  - specialize (ih a o). destruct (self_bindings _ _ _); try exact ih. intros A h1 h2. apply (ih A h1). intros y w hy. apply h2. right. exact hy.
Qed.
Lemma self_err r l vars a : NoDup l -> match pick_self r l vars a with Generated _ => True
  | ErrUnsatisfiable => forall A, (forall B, In B l -> A = B) -> (forall x v, In x vars -> a x = Some v -> A = v mod 2 ^ 160) -> False | _ => False end.
Proof.
  unfold pick_self. destruct l as [|t [|t' l]]; intros h.
  - pose proof (self_bindings_err vars a None) as k. destruct (self_bindings _ _ _); cbn [gbind]; try exact k. intros A _ h2. apply (k A); [discriminate|exact h2].
  - pose proof (self_bindings_err vars a (Some t)) as k. destruct (self_bindings _ _ _); cbn [gbind]; try exact k. intros A h1 h2. apply (k A); [|exact h2]. intros B e. injection e as <-. apply h1. left. reflexivity.
  - intros A k _. exact (two _ _ _ _ h k).
Qed.
Lemma destructed_err r p : match pick_destructed r p with Generated _ => True | ErrUnsatisfiable => fst p = true /\ snd p = true | _ => False end.
Proof. destruct p as [[|] [|]]; cbn; auto. Qed.
Lemma gas_err r M cs : 0 <= M < 2 ^ 62 -> proper r -> Forall (fun c => typed tInt c /\ bounds c) cs -> forall m, - 2 ^ 62 <= m <= M ->
  match solved (RangeGenerate tInt r (range_solver m M cs)) with Generated _ => True | ErrUnsatisfiable => forall v, m <= v <= M -> ~ Forall (obeys v) cs | _ => False end.
Proof.
  intros hM hr hc m hm. assert (h1 : in_type tInt m) by (unfold in_type, it_min, it_max, tInt; cbn -[Z.pow]; lia). assert (h2 : in_type tInt M) by (unfold in_type, it_min, it_max, tInt; cbn -[Z.pow]; lia).
  destruct (range_solver_correct tInt m M cs ltac:(split; [cbn; lia|right; reflexivity]) h1 h2 ltac:(eapply Forall_impl; [|exact hc]; cbn; tauto) ltac:(eapply Forall_impl; [|exact hc]; cbn; tauto)) as [[H _] _].
  specialize (H r hr). cbv beta in H. destruct (RangeGenerate _ _ _); cbn; [exact Logic.I| |exact H]. intros v hv k. apply (H v). split; assumption.
Qed.

(** *** Blob hashes *)
Definition edgeb (a : Assignment) (qs : list blob_request) : bool :=
  existsb (fun q => match q with Present x => existsb (fun q' => match q' with Absent y => match a y with Some m => match a x with Some k => k =? m | None => m =? 0 end | None => false end | _ => false end) qs | _ => false end) qs.
Lemma edgeb_spec a qs : edgeb a qs = true <-> blob_edge a qs.
Proof.
  unfold edgeb, blob_edge. rewrite existsb_exists. split.
  - intros (q & h1 & h2). destruct q as [x|x]; [|discriminate]. apply existsb_exists in h2. destruct h2 as (q' & h2 & h3). destruct q' as [y|y]; [discriminate|].
    destruct (a y) as [m|] eqn:e; [|discriminate]. exists x, y, m. split; [exact h1|split; [exact h2|split; [exact e|]]]. destruct (a x); apply Z.eqb_eq in h3; subst; auto.
  - intros (x & y & m & h1 & h2 & h3 & h4). exists (Present x). split; [exact h1|]. apply existsb_exists. exists (Absent y). split; [exact h2|]. rewrite h3. destruct h4 as [-> | [-> ->]]; apply Z.eqb_refl.
Qed.
Lemma blob_dec c b q : {blob_fulfils c b q} + {~ blob_fulfils c b q}.
Proof.
  destruct q as [x|x]; cbn; (destruct (b x) as [k|]; [|right; intros (k & e & _); discriminate]).
  - destruct (Z_le_dec 0 k); [|right; intros (j & e & h); injection e as <-; lia]. destruct (Z_lt_dec k c); [left; eauto|right; intros (j & e & h); injection e as <-; lia].
  - destruct (Z_le_dec c k); [|right; intros (j & e & h); injection e as <-; lia]. destruct (Z_lt_dec k (2 ^ 256)); [left; exists k; split; [reflexivity|split; assumption]|right; intros (j & e & h); injection e as <-; lia].
Qed.
Lemma bind_indices_extends rnd : forall order i c a b, bind_indices rnd i c order a = Generated b -> extends a b.
Proof.
  induction order as [|[x h] order ih]; intros i c a b e; cbn [bind_indices] in e; [injection e as <-; intros y v k; exact k|]. destruct (a x) eqn:ex; [apply ih in e; exact e|].
  cbv zeta in e. apply bind_gen in e. destruct e as (v & _ & e). apply ih in e. intros y w hy. apply e. unfold put. destruct (Z.eqb_spec y x); [subst; congruence|exact hy].
Qed.
Lemma tx_sound rnd a qs order order' c b : (forall i, proper (rnd i)) -> words a ->
  Permutation order (tg_vars (tx_generator qs)) -> Permutation order' (tg_vars (tx_generator qs)) ->
  TxGenerate rnd order order' a (tx_generator qs) = Generated (c, b) -> 0 <= c < 2 ^ 64 /\ extends a b /\ (Forall (blob_fulfils c b) qs \/ blob_edge a qs).
Proof.
  intros hr ha ho ho' e. assert (he : 0 <= c < 2 ^ 64 /\ extends a b).
  { clear ho ho'. unfold TxGenerate in e. destruct (tg_unsat _); [discriminate|]. apply bind_gen in e. destruct e as ([m l] & _ & e). destruct (_ || _); [discriminate|]. cbv zeta in e.
    apply bind_gen in e. destruct e as (b' & e1 & e). injection e as <- <-. split; [unfold uint64; apply Z.mod_pos_bound; lia|apply (bind_indices_extends _ _ _ _ _ _ e1)]. }
  split; [tauto|split; [tauto|]]. destruct (edgeb a qs) eqn:hb; [right; apply edgeb_spec; exact hb|]. left. assert (hn : ~ blob_edge a qs) by (intros k; apply edgeb_spec in k; congruence).
  destruct (Forall_dec (blob_fulfils c b) (blob_dec c b) qs) as [h|h]; [exact h|]. exfalso.
  assert (hp : ~ blobs_possible a qs).
  { intros hp. destruct (tx_generates rnd a qs order order' hr ha ho ho' hp) as (c' & b' & e' & _ & _ & hf). rewrite e in e'. injection e' as <- <-. exact (h hf). }
  rewrite (tx_errors rnd a qs order order' hr ha ho ho' hp hn) in e. discriminate.
Qed.

(** *** Fulfilment by extended assignments *)
Lemma names_mono b c x A : extends b c -> names b x A -> names c x A.
Proof. intros h (v & hv & ->). exists v. split; [apply h; exact hv|reflexivity]. Qed.
Lemma storage_mono b c s q : extends b c -> storage_fulfils b s q -> storage_fulfils c s q.
Proof. intros h. destruct q; cbn; [intros (k & v & h1 & h2 & h3); exists k, v; auto|intros (k & h1 & h2); exists k; auto|intros (k & h1 & h2); exists k; auto]. Qed.
Lemma transient_mono b c s q : extends b c -> transient_fulfils b s q -> transient_fulfils c s q.
Proof. intros h. destruct q; cbn; intros (k & h1 & h2); exists k; auto. Qed.
Lemma account_mono b c s q : extends b c -> account_fulfils b s q -> account_fulfils c s q.
Proof. intros h (A & h1 & h2). exists A. split; [apply (names_mono b); assumption|exact h2]. Qed.
Lemma blob_mono n b c q : extends b c -> blob_fulfils n b q -> blob_fulfils n c q.
Proof. intros h. destruct q; cbn; intros (k & h1 & h2); exists k; auto. Qed.
Lemma extends_trans a b c : extends a b -> extends b c -> extends a c.
Proof. intros h1 h2 x v h. apply h2, h1, h. Qed.
