(** Proofs about the generator of codes. *)
From Verif Require Import Base SpecEvm SpecRules ArithFacts MemFacts JumpFacts CtSolve CtGen SpecGen CtStorageFacts CtCodeGen SpecCode.

(** *** The lists of the generator *)
Definition const_of q := match q with OpAt p o => [(p, o)] | _ => [] end.
Definition var_of q := match q with OpVar x o => [(x, o)] | _ => [] end.
Definition code_of q := match q with CodeVar x => [x] | _ => [] end.
Definition data_of q := match q with DataVar x => [x] | _ => [] end.
Lemma fields qs : forall g, fold_left code_request_call qs g =
  mkCodeGen (constOps g ++ flat_map const_of qs) (varOps g ++ flat_map var_of qs) (varIsCode g ++ flat_map code_of qs) (varIsData g ++ flat_map data_of qs).
Proof.
  induction qs as [|q qs IH]; intros g; cbn [fold_left flat_map]; [rewrite !app_nil_r; destruct g; reflexivity|].
  rewrite IH. destruct q; cbn [code_request_call SetOperation AddOperation AddIsCode AddIsData constOps varOps varIsCode varIsData const_of var_of code_of data_of app]; rewrite <-?app_assoc; reflexivity.
Qed.
Lemma generator_fields qs : code_generator qs = mkCodeGen (flat_map const_of qs) (flat_map var_of qs) (flat_map code_of qs) (flat_map data_of qs).
Proof. unfold code_generator. rewrite fields. reflexivity. Qed.
Lemma const_in qs p o : In (p, o) (flat_map const_of qs) <-> In (OpAt p o) qs.
Proof. rewrite in_flat_map. split; [intros (q & h1 & h2); destruct q; cbn in h2; try tauto; destruct h2 as [e|[]]; injection e as -> ->; exact h1|intros h; exists (OpAt p o); cbn; auto]. Qed.
Lemma var_in qs p o : In (p, o) (flat_map var_of qs) <-> In (OpVar p o) qs.
Proof. rewrite in_flat_map. split; [intros (q & h1 & h2); destruct q; cbn in h2; try tauto; destruct h2 as [e|[]]; injection e as -> ->; exact h1|intros h; exists (OpVar p o); cbn; auto]. Qed.
Lemma code_in qs x : In x (flat_map code_of qs) <-> In (CodeVar x) qs.
Proof. rewrite in_flat_map. split; [intros (q & h1 & h2); destruct q; cbn in h2; try tauto; destruct h2 as [e|[]]; subst; exact h1|intros h; exists (CodeVar x); cbn; auto]. Qed.
Lemma data_in qs x : In x (flat_map data_of qs) <-> In (DataVar x) qs.
Proof. rewrite in_flat_map. split; [intros (q & h1 & h2); destruct q; cbn in h2; try tauto; destruct h2 as [e|[]]; subst; exact h1|intros h; exists (DataVar x); cbn; auto]. Qed.

(** *** Bound operations *)
Lemma bind_ops_spec a l : forall ops vars ops' vars', bind_ops a l ops vars = Some (ops', vars') ->
  (forall p o, In (p, o) ops' <-> In (p, o) ops \/ exists x, In (x, o) l /\ a x = Some p) /\
  (forall x o, In (x, o) vars' <-> In (x, o) vars \/ In (x, o) l /\ a x = None).
Proof.
  induction l as [|[x op] l IH]; intros ops vars ops' vars' e; cbn [bind_ops] in e.
  - injection e as <- <-. split; intros; split; auto; [intros [h|(y & [] & _)]; exact h|intros [h|[[] _]]; exact h].
  - destruct (a x) as [v|] eqn:ea.
    + destruct ((2 ^ 64 <=? v) || (v >? MaxCodeSize)); [discriminate|]. apply IH in e. destruct e as [e1 e2]. split.
      * intros p o. rewrite e1, in_app_iff. cbn [In]. split.
        -- intros [[h|[h|[]]]|(y & h1 & h2)]; [left; exact h|injection h as -> ->; right; exists x; auto|right; exists y; auto].
        -- intros [h|(y & [h1|h1] & h2)]; [auto|injection h1 as -> ->; left; right; left; congruence|right; exists y; auto].
      * intros y o. rewrite e2. cbn [In]. split; [tauto|]. intros [h|[[h|h] k]]; [auto|injection h as -> ->; congruence|auto].
    + apply IH in e. destruct e as [e1 e2]. split.
      * intros p o. rewrite e1. cbn [In]. split; [intros [h|(y & h1 & h2)]; [auto|right; exists y; auto]|]. intros [h|(y & [h1|h1] & h2)]; [auto|injection h1 as -> ->; congruence|right; exists y; auto].
      * intros y o. rewrite e2, in_app_iff. cbn [In]. split.
        -- intros [[h|[h|[]]]|h]; [auto|injection h as -> ->; auto|tauto].
        -- intros [h|[[h|h] k]]; [auto|auto|auto].
Qed.

Definition bytes_ops (l : list (Z * Z)) : Prop := forall p o, In (p, o) l -> 0 <= o < 256.
Lemma Width_push o : Width o = 1 + push_len o.
Proof. unfold Width, is_push, push_len. destruct ((0x60 <=? o) && (o <=? 0x7F)); lia. Qed.
Lemma push_nonneg o : 0 <= push_len o.
Proof. unfold push_len. destruct ((0x60 <=? o) && (o <=? 0x7F)) eqn:e; [|lia]. rewrite andb_true_iff, !Z.leb_le in e. lia. Qed.

(** *** Marks *)
Definition Inv (s : solver) : Prop := forall q,
  match v_used s q with
  | isUnused => True
  | isCode => exists o, In (q, o) (v_ops s)
  | isData => exists p o, In (p, o) (v_ops s) /\ p < q <= p + push_len o
  end.
Definition grows (s s' : solver) : Prop :=
  incl (v_ops s) (v_ops s') /\ (forall q, v_used s q <> isUnused -> v_used s' q = v_used s q) /\ (bytes_ops (v_ops s) -> bytes_ops (v_ops s')) /\ (Inv s -> Inv s').
Lemma grows_refl s s' : v_ops s' = v_ops s -> v_used s' = v_used s -> grows s s'.
Proof. intros e1 e2. unfold grows, Inv. rewrite e1, e2. split; [apply incl_refl|]. auto. Qed.
Lemma grows_trans a b c : grows a b -> grows b c -> grows a c.
Proof.
  intros (h1 & h2 & h3 & h4) (k1 & k2 & k3 & k4). split; [intros x hx; apply k1, h1, hx|]. split; [|split; auto].
  intros q hq. rewrite k2 by (rewrite h2 by exact hq; exact hq). apply h2. exact hq.
Qed.
Lemma mark_at p o u : markUsed p o u p = isCode.
Proof. unfold markUsed. rewrite Z.ltb_irrefl, Z.eqb_refl. reflexivity. Qed.
Lemma place_grows p o s : 0 <= o < 256 -> (forall q, p <= q <= p + push_len o -> v_used s q = isUnused) -> grows s (place p o s).
Proof.
  intros ho hu. split; [intros x hx; cbn; apply in_or_app; auto|]. split; [|split].
  - intros q hq. cbn. unfold markUsed. rewrite Width_push. destruct ((p <? q) && (q <=? p + (1 + push_len o - 1))) eqn:e.
    + rewrite andb_true_iff, Z.ltb_lt, Z.leb_le in e. elim hq. apply hu. lia.
    + destruct (q =? p) eqn:e2; [|reflexivity]. rewrite Z.eqb_eq in e2. subst. elim hq. apply hu. pose proof (push_nonneg o). lia.
  - intros hb q o' hq. cbn in hq. apply in_app_iff in hq. destruct hq as [hq|[hq|[]]]; [apply hb in hq; exact hq|injection hq as <- <-; exact ho].
  - intros hi q. cbn. unfold markUsed. rewrite Width_push. destruct ((p <? q) && (q <=? p + (1 + push_len o - 1))) eqn:e.
    + rewrite andb_true_iff, Z.ltb_lt, Z.leb_le in e. exists p, o. rewrite in_app_iff. cbn. split; [auto|lia].
    + destruct (q =? p) eqn:e2; [rewrite Z.eqb_eq in e2; subst; exists o; rewrite in_app_iff; cbn; auto|].
      specialize (hi q). destruct (v_used s q); [exact Logic.I| |].
      * destruct hi as [o' hi]. exists o'. rewrite in_app_iff. auto.
      * destruct hi as (p' & o' & h1 & h2). exists p', o'. rewrite in_app_iff. auto.
Qed.
Lemma new_solver_inv ops a : Inv (new_solver ops a) /\ forall p o, In (p, o) ops -> v_used (new_solver ops a) p <> isUnused.
Proof.
  unfold new_solver, Inv. cbn.
  enough (X : forall l u done, (forall q, match u q with isUnused => True | isCode => exists o, In (q, o) done | isData => exists p o, In (p, o) done /\ p < q <= p + push_len o end) -> (forall p o, In (p, o) done -> u p <> isUnused) ->
    let u' := fold_left (fun u c => markUsed (fst c) (snd c) u) l u in
    (forall q, match u' q with isUnused => True | isCode => exists o, In (q, o) (done ++ l) | isData => exists p o, In (p, o) (done ++ l) /\ p < q <= p + push_len o end) /\ (forall p o, In (p, o) (done ++ l) -> u' p <> isUnused)).
  { specialize (X ops (fun _ => isUnused) []). cbn [app] in X. apply X; [intros; exact Logic.I|intros p o []]. }
  intros l. induction l as [|[p o] l IH]; intros u done h1 h2; cbn [fold_left]; [rewrite app_nil_r; split; assumption|].
  replace (done ++ (p, o) :: l) with ((done ++ [(p, o)]) ++ l) by (rewrite <-app_assoc; reflexivity). apply IH; cbn [fst snd].
  - intros q. unfold markUsed. rewrite Width_push. destruct ((p <? q) && (q <=? p + (1 + push_len o - 1))) eqn:e.
    + rewrite andb_true_iff, Z.ltb_lt, Z.leb_le in e. exists p, o. rewrite in_app_iff. cbn. split; [auto|lia].
    + destruct (q =? p) eqn:e2; [rewrite Z.eqb_eq in e2; subst; exists o; rewrite in_app_iff; cbn; auto|].
      specialize (h1 q). destruct (u q); [exact Logic.I| |].
      * destruct h1 as [o' hi]. exists o'. rewrite in_app_iff. auto.
      * destruct h1 as (p' & o' & k1 & k2). exists p', o'. rewrite in_app_iff. auto.
  - intros q o' hq. unfold markUsed. destruct ((p <? q) && (q <=? p + (Width o - 1))); [discriminate|]. destruct (q =? p) eqn:e2; [discriminate|].
    apply in_app_iff in hq. destruct hq as [hq|[hq|[]]]; [exact (h2 q o' hq)|]. injection hq as <- <-. rewrite Z.eqb_refl in e2. discriminate.
Qed.

Section Random.
Variable rnd : nat -> Z.

Variable size : Z.

Lemma bind_gen {A B} (m : outcome A) (k : A -> outcome B) b : gbind m k = Generated b -> exists a, m = Generated a /\ k a = Generated b.
Proof. destruct m; cbn; try discriminate. intros h. eauto. Qed.
Lemma draw_spec n s i s' : draw_below rnd n s = Generated (i, s') -> 0 <= i < n /\ v_ops s' = v_ops s /\ v_used s' = v_used s /\ v_asg s' = v_asg s.
Proof.
  unfold draw_below. destruct (Z.leb_spec n 0); [discriminate|]. intros e. injection e as <- <-. pose proof (Z.mod_pos_bound (rnd (v_drawn s)) n ltac:(lia)). cbn. auto.
Qed.
Lemma search_spec good : forall k pos start p, 0 <= pos < size -> search size good k pos start = Generated p -> good p = true /\ 0 <= p < size.
Proof.
  induction k as [|k IH]; intros pos start p hp e; cbn [search] in e; [discriminate|].
  destruct (good pos) eqn:eg; [injection e as <-; auto|]. destruct (_ =? start); [discriminate|]. apply IH in e; [exact e|].
  destruct (pos + 1 >=? size) eqn:e1; [lia|]. rewrite Z.geb_leb, Z.leb_gt in e1. lia.
Qed.
Lemma find_spec good s p s' : find_position rnd size good s = Generated (p, s') ->
  good p = true /\ 0 <= p < size /\ v_ops s' = v_ops s /\ v_used s' = v_used s /\ v_asg s' = v_asg s.
Proof.
  unfold find_position. intros e. apply bind_gen in e. destruct e as ([start s1] & e1 & e). apply bind_gen in e. destruct e as (q & e2 & e). injection e as <- <-.
  apply draw_spec in e1. destruct e1 as (h0 & h). apply search_spec in e2; [|exact h0]. tauto.
Qed.
Lemma fits_spec u pos op : fits size u pos op = true -> pos + push_len op < size /\ forall q, pos <= q <= pos + push_len op -> u q = isUnused.
Proof.
  unfold fits. rewrite Width_push, Z.gtb_ltb. destruct (Z.ltb_spec (size - pos) (1 + push_len op)); [discriminate|]. rewrite forallb_forall. intros hf. split; [lia|].
  intros q hq. specialize (hf (Z.to_nat (q - pos))). rewrite in_seq in hf. replace (pos + Z.of_nat (Z.to_nat (q - pos))) with q in hf by lia.
  specialize (hf ltac:(lia)). unfold unused in hf. destruct (u q); congruence.
Qed.
Lemma largest_spec u : forall k pos, 0 <= largest_fit k size u pos <= Z.of_nat k /\ forall q, pos <= q < pos + largest_fit k size u pos -> q < size /\ u q = isUnused.
Proof.
  induction k as [|k IH]; intros pos; cbn [largest_fit]; [split; [lia|intros q hq; lia]|]. destruct ((pos <? size) && unused u pos) eqn:e; [|split; [lia|intros q hq; lia]].
  rewrite andb_true_iff, Z.ltb_lt in e. destruct e as [e1 e2]. specialize (IH (pos + 1)). split; [lia|]. intros q hq. destruct (Z.eq_dec q pos) as [->|].
  - split; [exact e1|]. unfold unused in e2. destruct (u pos); congruence.
  - apply (proj2 IH). lia.
Qed.

(** The variable [x] names the position of an operation / of a PUSH's data. *)
Definition C (s : solver) (x : Z) : Prop := exists p, v_asg s x = Some p /\ v_used s p = isCode /\ 0 <= p < size.
Definition T (s : solver) (x o : Z) : Prop := exists p, v_asg s x = Some p /\ In (p, o) (v_ops s) /\ v_used s p = isCode /\ 0 <= p < size.
Definition D (s : solver) (x : Z) : Prop := exists p, v_asg s x = Some p /\ v_used s p = isData /\ 0 <= p < size.
Lemma grows_C s s' x : grows s s' -> v_asg s' x = v_asg s x -> C s x -> C s' x.
Proof. intros (_ & g & _) e (p & h1 & h2 & h3). exists p. rewrite e, g by congruence. auto. Qed.
Lemma grows_T s s' x o : grows s s' -> v_asg s' x = v_asg s x -> T s x o -> T s' x o.
Proof. intros (gi & g & _) e (p & h1 & h2 & h3 & h4). exists p. rewrite e, g by congruence. auto. Qed.
Lemma grows_D s s' x : grows s s' -> v_asg s' x = v_asg s x -> D s x -> D s' x.
Proof. intros (_ & g & _) e (p & h1 & h2 & h3). exists p. rewrite e, g by congruence. auto. Qed.
Lemma put_eq {A} (m : Z -> option A) k a : put m k a k = Some a.
Proof. unfold put. rewrite Z.eqb_refl. reflexivity. Qed.
Lemma put_neq {A} (m : Z -> option A) k a x : x <> k -> put m k a x = m x.
Proof. intros h. unfold put. rewrite (proj2 (Z.eqb_neq x k) h). reflexivity. Qed.
Lemma assign_grows v p s s' : grows s s' -> grows s (assign v p s').
Proof. intros h. apply (grows_trans _ s'); [exact h|]. apply grows_refl; reflexivity. Qed.
Lemma same_grows s s1 s' : v_ops s1 = v_ops s -> v_used s1 = v_used s -> grows s1 s' -> grows s s'.
Proof. intros e1 e2 h. apply (grows_trans _ s1); [|exact h]. apply grows_refl; assumption. Qed.

Lemma solveVarOps_spec l : forall bound s s', (forall x o, bound x = Some o -> T s x o) -> (forall x o, In (x, o) l -> 0 <= o < 256) -> solveVarOps rnd size l bound s = Generated s' ->
  grows s s' /\ (forall x o, In (x, o) l \/ bound x = Some o -> T s' x o) /\ (forall x, (forall o, ~ In (x, o) l) -> v_asg s' x = v_asg s x).
Proof.
  induction l as [|[v op] l IH]; intros bound s s' hb hl e; cbn [solveVarOps] in e.
  - injection e as <-. split; [apply grows_refl; reflexivity|]. split; [intros x o [[]|h]; auto|auto].
  - destruct (bound v) as [op'|] eqn:eb.
    + destruct (op' =? op) eqn:eo; [|discriminate]. rewrite Z.eqb_eq in eo. subst op'.
      apply IH in e; [|exact hb|intros x o h; apply (hl x); right; exact h]. destruct e as (e1 & e2 & e3). split; [exact e1|]. split.
      * intros x o [[h|h]|h]; [injection h as <- <-; apply e2; right; exact eb|apply e2; left; exact h|apply e2; right; exact h].
      * intros x h. apply e3. intros o k. apply (h o). right. exact k.
    + apply bind_gen in e. destruct e as ([pos s1] & e1 & e). apply find_spec in e1. destruct e1 as (hf & hp & q1 & q2 & q3). apply fits_spec in hf. destruct hf as [hf1 hf2].
      set (s2 := assign v pos (place pos op s1)) in *.
      assert (g : grows s s2). { apply assign_grows, (same_grows _ s1); [exact q1|exact q2|]. apply place_grows; [apply (hl v); left; reflexivity|]. intros q hq. rewrite q2. apply hf2. exact hq. }
      assert (t : T s2 v op). { exists pos. cbn. rewrite put_eq, mark_at, in_app_iff. cbn. auto. }
      apply IH in e.
      * destruct e as (k1 & k2 & k3). split; [apply (grows_trans _ s2); assumption|]. split.
        -- intros x o [[h|h]|h]; [injection h as <- <-; apply k2; right; apply put_eq|apply k2; left; exact h|]. apply k2. right. rewrite put_neq; [exact h|congruence].
        -- intros x h. rewrite k3; [|intros o k; apply (h o); right; exact k]. cbn. rewrite put_neq by (intros ->; apply (h op); left; reflexivity). rewrite q3. reflexivity.
      * intros x o. unfold put. destruct (x =? v) eqn:ex; [rewrite Z.eqb_eq in ex; intros h; injection h as <-; subst x; exact t|]. intros h.
        apply (grows_T s); [exact g| |apply hb; exact h]. cbn. rewrite put_neq by (intros ->; rewrite Z.eqb_refl in ex; discriminate). rewrite q3. reflexivity.
      * intros x o h. apply (hl x). right. exact h.
Qed.

Lemma valid_ops : forallb (fun o => (0 <=? o) && (o <? 256) && (push_len o =? 0)) ValidOpCodesNoPush = true.
Proof. vm_compute. reflexivity. Qed.
Lemma valid_op i : 0 <= i < zlen ValidOpCodesNoPush -> let o := nth (Z.to_nat i) ValidOpCodesNoPush 0 in 0 <= o < 256 /\ push_len o = 0.
Proof.
  intros hi o. pose proof valid_ops as h. rewrite forallb_forall in h. specialize (h o ltac:(apply nth_In; unfold zlen in hi; lia)).
  rewrite !andb_true_iff, Z.leb_le, Z.ltb_lt, Z.eqb_eq in h. tauto.
Qed.
Lemma solveIsCode_spec l : forall s s', (forall x p, v_asg s x = Some p -> 0 <= p) -> solveIsCode rnd size l s = Generated s' ->
  grows s s' /\ (forall x, In x l -> C s' x) /\ (forall x, ~ In x l \/ C s x -> v_asg s' x = v_asg s x).
Proof.
  induction l as [|v l IH]; intros s s' hz e; cbn [solveIsCode] in e.
  - injection e as <-. split; [apply grows_refl; reflexivity|]. split; [intros x []|auto].
  - assert (hcase : (C s v /\ solveIsCode rnd size l s = Generated s') \/ ~ C s v /\
      gbind (find_position rnd size (fun p => negb (used_data (v_used s) p)) s) (fun '(pos, s1) => gen! s2 <- (if unused (v_used s1) pos then gen! ' (i, s2) <- draw_below rnd (zlen ValidOpCodesNoPush) s1; Generated (place pos (nth (Z.to_nat i) ValidOpCodesNoPush 0) s2) else Generated s1); solveIsCode rnd size l (assign v pos s2)) = Generated s').
    { destruct (v_asg s v) as [p|] eqn:ea.
      - destruct (Z.leb_spec size p); [discriminate|]. destruct (used_code (v_used s) p) eqn:eu.
        + assert (k : v_used s p = isCode) by (unfold used_code in eu; destruct (v_used s p); congruence). left. split; [|exact e]. exists p. split; [exact ea|]. split; [exact k|]. pose proof (hz v p ea). lia.
        + right. split; [|exact e]. intros (p' & k1 & k2 & _). rewrite ea in k1. injection k1 as <-. unfold used_code in eu. rewrite k2 in eu. discriminate.
      - right. split; [|exact e]. intros (p' & k1 & _). congruence. }
    clear e. destruct hcase as [[hc e]|[hnc e]].
    + apply IH in e; [|exact hz]. destruct e as (e1 & e2 & e3). split; [exact e1|]. split.
      * intros x [<-|h]; [|apply e2; exact h]. apply (grows_C s); [exact e1|apply e3; right; exact hc|exact hc].
      * intros x [h|h]; apply e3; [left; intros k; apply h; right; exact k|right; exact h].
    + apply bind_gen in e. destruct e as ([pos s1] & e1 & e). apply find_spec in e1. destruct e1 as (hf & hp & q1 & q2 & q3).
      apply bind_gen in e. destruct e as (s2 & e2 & e).
      assert (X : grows s s2 /\ v_used s2 pos = isCode /\ v_asg s2 = v_asg s).
      { destruct (unused (v_used s1) pos) eqn:eu.
        - apply bind_gen in e2. destruct e2 as ([i s3] & d & e2). assert (E : s2 = place pos (nth (Z.to_nat i) ValidOpCodesNoPush 0) s3) by congruence. clear e2. subst s2. apply draw_spec in d. destruct d as (d0 & d1 & d2 & d3). destruct (valid_op i d0) as [v1 v2].
          split; [|split; [cbn; apply mark_at|cbn; congruence]]. apply (same_grows _ s3); [congruence|congruence|]. apply place_grows; [exact v1|]. intros q hq. assert (e5 : q = pos) by (cbv zeta in v2; rewrite v2 in hq; lia). subst q.
          rewrite d2. unfold unused in eu. destruct (v_used s1 pos); congruence.
        - injection e2 as <-. split; [apply grows_refl; assumption|]. split; [|exact q3]. unfold unused in eu. rewrite q2 in *. unfold used_data in hf. destruct (v_used s pos); cbn in *; congruence. }
      destruct X as (g & hu & ha). set (s4 := assign v pos s2) in *. assert (g4 : grows s s4) by (apply assign_grows; exact g).
      assert (c4 : C s4 v) by (exists pos; cbn; rewrite put_eq; auto).
      apply IH in e.
      * destruct e as (k1 & k2 & k3). split; [apply (grows_trans _ s4); assumption|]. split.
        -- intros x [<-|h]; [|apply k2; exact h]. apply (grows_C s4); [exact k1|apply k3; right; exact c4|exact c4].
        -- intros x h. assert (hx : x <> v) by (destruct h as [h|h]; [intros ->; apply h; left; reflexivity|intros ->; exact (hnc h)]).
           assert (ea : v_asg s4 x = v_asg s x) by (cbn; rewrite put_neq by exact hx; rewrite ha; reflexivity).
           rewrite k3; [exact ea|]. destruct h as [h|h]; [left; intros k; apply h; right; exact k|right; apply (grows_C s); assumption].
      * intros x p. cbn. unfold put. destruct (x =? v); [intros h; injection h as <-; lia|]. rewrite ha. apply hz.
Qed.

Lemma solveIsData_spec l : forall s s', solveIsData rnd size l s = Generated s' ->
  grows s s' /\ (forall x, In x l -> D s' x) /\ (forall x, ~ In x l \/ C s x -> v_asg s' x = v_asg s x) /\ (forall x, D s x -> D s' x).
Proof.
  induction l as [|v l IH]; intros s s' e; cbn [solveIsData] in e.
  - injection e as <-. split; [apply grows_refl; reflexivity|]. split; [intros x []|auto].
  - destruct (match v_asg s v with Some pos => (pos <? size) && used_code (v_used s) pos | None => false end) eqn:ec; [discriminate|].
    assert (hnc : ~ C s v). { intros (p & h1 & h2 & h3). rewrite h1 in ec. unfold used_code in ec. rewrite h2, andb_true_r, Z.ltb_ge in ec. lia. }
    apply bind_gen in e. destruct e as ([pos s1] & e1 & e). apply find_spec in e1. destruct e1 as (hf & hp & q1 & q2 & q3).
    assert (X : exists s4 p, solveIsData rnd size l (assign v p s4) = Generated s' /\ grows s s4 /\ v_used s4 p = isData /\ 0 <= p < size /\ v_asg s4 = v_asg s).
    { destruct (unused (v_used s1) pos) eqn:eu.
      - apply bind_gen in e. destruct e as ([i s2] & d & e). apply bind_gen in e. destruct e as ([j s3] & d' & e). apply draw_spec in d, d'. destruct d as (d0 & d1 & d2 & d3). destruct d' as (f0 & f1 & f2 & f3).
        pose proof (largest_spec (v_used s1) 33 pos) as L. fold (largestFit size (v_used s1) pos) in L. destruct L as [L1 L2].
        assert (ew : push_len (0x60 + i) = i + 1). { unfold push_len. replace ((0x60 <=? 0x60 + i) && (0x60 + i <=? 0x7F)) with true by (symmetry; rewrite andb_true_iff, !Z.leb_le; lia). lia. }
        exists s3, (pos + 1 + j). split; [exact e|]. unfold place in f1, f2, f3. cbn [v_ops v_used v_asg v_drawn] in f1, f2, f3. split; [|split; [|split; [|congruence]]].
        + apply (grows_trans _ (place pos (0x60 + i) s2)); [|apply grows_refl; [exact f1|exact f2]]. apply (same_grows _ s2); [congruence|congruence|]. apply place_grows; [lia|]. rewrite ew. intros q hq. rewrite d2. apply L2. lia.
        + rewrite f2. unfold markUsed. rewrite Width_push, ew. replace ((pos <? pos + 1 + j) && (pos + 1 + j <=? pos + (1 + (i + 1) - 1))) with true by (symmetry; rewrite andb_true_iff, Z.ltb_lt, Z.leb_le; lia). reflexivity.
        + specialize (L2 (pos + 1 + j) ltac:(lia)). lia.
      - exists s1, pos. split; [exact e|]. split; [apply grows_refl; assumption|]. split; [|split; [exact hp|exact q3]].
        rewrite q2 in *. unfold unused, used_data in *. destruct (v_used s pos); [discriminate|discriminate|reflexivity]. }
    clear e hf hp. destruct X as (s4 & p & e & g & hu & hp & ha). set (s5 := assign v p s4) in *. assert (g5 : grows s s5) by (apply assign_grows; exact g).
    assert (d5 : D s5 v) by (exists p; cbn; rewrite put_eq; auto).
    apply IH in e. destruct e as (k1 & k2 & k3 & k4). split; [apply (grows_trans _ s5); assumption|]. split; [|split].
    + intros x [<-|h]; [apply k4; exact d5|apply k2; exact h].
    + intros x h. assert (hx : x <> v) by (destruct h as [h|h]; [intros ->; apply h; left; reflexivity|intros ->; exact (hnc h)]).
      assert (ea : v_asg s5 x = v_asg s x) by (cbn; rewrite put_neq by exact hx; rewrite ha; reflexivity).
      rewrite k3; [exact ea|]. destruct h as [h|h]; [left; intros k; apply h; right; exact k|right; apply (grows_C s); assumption].
    + intros x h. apply k4. destruct (Z.eq_dec x v) as [->|hx]; [exact d5|]. apply (grows_D s); [exact g5| |exact h]. cbn. rewrite put_neq by exact hx. rewrite ha. reflexivity.
Qed.

(** *** The code *)
Variable fill : Z -> Z.
Lemma znth_mid {A} (pre : list A) x post : znth (pre ++ x :: post) (zlen pre) = Some x.
Proof. unfold znth, zlen. destruct (Z.ltb_spec (Z.of_nat (length pre)) 0); [lia|]. rewrite Nat2Z.id, nth_error_app2, Nat.sub_diag by lia. reflexivity. Qed.
Lemma znth_code_at code p o : znth code p = Some o -> code_at code p = o.
Proof. intros h. pose proof (znth_in code p o h) as k. rewrite znth_data in h by exact k. injection h as <-. reflexivity. Qed.
Lemma random_bytes_len i n : zlen (random_bytes fill i n) = Z.max 0 n.
Proof. unfold random_bytes, zlen. rewrite map_length, seq_length. lia. Qed.
Lemma random_bytes_ok i n : Forall is_byte (random_bytes fill i n).
Proof. apply Forall_forall. intros x h. apply in_map_iff in h. destruct h as (k & <- & _). unfold is_byte. apply Z.mod_pos_bound. lia. Qed.
Lemma random_op_byte i next : i < next -> 0 <= random_op fill i next < 256.
Proof.
  intros h. unfold random_op. pose proof (Z.mod_pos_bound (fill i) 256 ltac:(lia)). destruct (_ && _); [|assumption]. destruct (Z.ltb_spec (next - i - 1) 32); lia.
Qed.

Definition starts (pre : list Z) : Prop := forall l, instr_start (pre ++ l) (zlen pre).
Lemma starts_next pre op data : starts pre -> zlen data = push_len op -> starts (pre ++ op :: data).
Proof.
  intros h hd l. rewrite <-app_assoc. cbn [app]. pose proof (h (op :: data ++ l)) as k. pose proof (znth_mid pre op (data ++ l)) as z.
  apply start_next in k; [|apply znth_in in z; lia]. rewrite (znth_code_at _ _ _ z) in k. rewrite zlen_app, zlen_cons, hd. replace (zlen pre + (push_len op + 1)) with (zlen pre + 1 + push_len op) by lia. exact k.
Qed.
Lemma build_spec : forall k pre ops l, bytes_ops ops -> starts pre -> zlen pre <= size -> build fill size k (zlen pre) ops = Generated l ->
  zlen (pre ++ l) = size /\ Forall is_byte l /\ forall p o, In (p, o) ops -> operation_at (pre ++ l) p o.
Proof.
  induction k as [|k IH]; intros pre ops l hb hs hz e; cbn [build] in e; [discriminate|]. destruct ops as [|[next fixed] ops]; [discriminate|].
  destruct (zlen pre >=? size) eqn:e1; [discriminate|]. rewrite Z.geb_leb, Z.leb_gt in e1. destruct (Z.ltb_spec next (zlen pre)); [discriminate|].
  set (pick := if zlen pre =? next then (fixed, ops) else (random_op fill (zlen pre) next, (next, fixed) :: ops)) in e.
  assert (X : exists op rest, pick = (op, rest) /\ 0 <= op < 256 /\ bytes_ops rest /\ forall p o, In (p, o) ((next, fixed) :: ops) -> (p = zlen pre /\ o = op) \/ In (p, o) rest).
  { subst pick. destruct (zlen pre =? next) eqn:en.
    - rewrite Z.eqb_eq in en. exists fixed, ops. split; [reflexivity|]. split; [apply (hb next); left; reflexivity|]. split; [intros p o h; apply (hb p); right; exact h|]. intros p o [h|h]; [injection h as <- <-; auto|auto].
    - rewrite Z.eqb_neq in en. exists (random_op fill (zlen pre) next), ((next, fixed) :: ops). split; [reflexivity|]. split; [apply random_op_byte; lia|]. split; [exact hb|auto]. }
  destruct X as (op & rest & -> & ho & hr & hin). destruct rest as [|r rest].
  - injection e as <-. split; [rewrite zlen_app, zlen_cons, random_bytes_len; lia|]. split; [constructor; [exact ho|apply random_bytes_ok]|].
    intros p o h. destruct (hin p o h) as [[-> ->]|[]]. split; [apply hs|apply znth_mid].
  - assert (Y : exists data l', l = op :: data ++ l' /\ zlen data = push_len op /\ Forall is_byte data /\ zlen pre + 1 + push_len op <= size /\ build fill size k (zlen pre + 1 + push_len op) (r :: rest) = Generated l').
    { unfold push_len. unfold is_push in e. destruct ((0x60 <=? op) && (op <=? 0x7F)) eqn:ep; apply bind_gen in e; destruct e as (l' & e2 & e); injection e as <-.
      - rewrite andb_true_iff, !Z.leb_le in ep. replace (zlen pre + 1 + (op - 0x60 + 1)) with (zlen pre + 1 + (op - 0x5F)) in * by lia.
        assert (hn : zlen pre + 1 + (op - 0x5F) < size). { destruct k as [|k']; cbn [build] in e2; [discriminate|]. destruct r. destruct (_ >=? size) eqn:e3; [discriminate|]. rewrite Z.geb_leb, Z.leb_gt in e3. lia. }
        exists (random_bytes fill (zlen pre + 1) (Z.min (zlen pre + 1 + (op - 0x5F)) size - (zlen pre + 1))), l'. split; [reflexivity|]. split; [rewrite random_bytes_len; lia|]. split; [apply random_bytes_ok|]. split; [lia|exact e2].
      - exists [], l'. split; [reflexivity|]. split; [reflexivity|]. split; [constructor|]. split; [lia|]. rewrite Z.add_0_r. exact e2. }
    destruct Y as (data & l' & -> & hd & hdb & hsz & e2).
    replace (zlen pre + 1 + push_len op) with (zlen (pre ++ op :: data)) in e2, hsz by (rewrite zlen_app, zlen_cons; lia).
    apply IH in e2; [|exact hr|apply starts_next; assumption|exact hsz]. rewrite <-app_assoc in e2. cbn [app] in e2. destruct e2 as (k1 & k2 & k3). split; [exact k1|]. split.
    + constructor; [exact ho|]. apply Forall_app. split; assumption.
    + intros p o h. destruct (hin p o h) as [[-> ->]|h2]; [|apply k3; exact h2]. split; [apply hs|apply znth_mid].
Qed.
Lemma build_len : forall k i ops l, 0 <= i <= size -> build fill size k i ops = Generated l -> zlen l = size - i.
Proof.
  induction k as [|k IH]; intros i ops l hi e; cbn [build] in e; [discriminate|]. destruct ops as [|[next fixed] ops]; [discriminate|].
          destruct (i >=? size) eqn:e1; [discriminate|]. rewrite Z.geb_leb, Z.leb_gt in e1. destruct (next <? i); [discriminate|].
          destruct (if i =? next then (fixed, ops) else (random_op fill i next, (next, fixed) :: ops)) as [op rest]. destruct rest as [|r rest].
          - injection e as <-. rewrite zlen_cons, random_bytes_len. lia.
          - unfold is_push in e. destruct ((0x60 <=? op) && (op <=? 0x7F)) eqn:ep; apply bind_gen in e; destruct e as (l' & e2 & e); injection e as <-.
            + rewrite andb_true_iff, !Z.leb_le in ep. assert (hn : i + 1 + (op - 0x60 + 1) < size). { destruct k as [|k']; cbn [build] in e2; [discriminate|]. destruct r. destruct (_ >=? size) eqn:e3 in e2; [discriminate|]. rewrite Z.geb_leb, Z.leb_gt in e3. lia. }
              apply IH in e2; [|lia]. rewrite zlen_cons, zlen_app, random_bytes_len, e2. lia.
            + apply IH in e2; [|lia]. rewrite zlen_cons, e2. lia.
Qed.
End Random.

Lemma operations_apart code p o q o' : operation_at code p o -> operation_at code q o' -> p < q -> p + push_len o < q.
Proof. intros [h1 h2] [k1 _] hlt. pose proof (start_gap code q k1 p h1 hlt) as h. rewrite (znth_code_at _ _ _ h2) in h. lia. Qed.
Lemma operation_data code p o q : operation_at code p o -> p < q <= p + push_len o -> push_data code q.
Proof. intros [h1 h2] hq. exists p. split; [exact h1|]. pose proof (znth_in _ _ _ h2). rewrite (znth_code_at _ _ _ h2). lia. Qed.

Lemma code_size_max e m : code_size e m <= MaxCodeSize.
Proof. unfold code_size, MaxCodeSize. rewrite Z.gtb_ltb. destruct (Z.ltb_spec 24576 (conv tInt (e + m))); lia. Qed.

Lemma code_generate_sound rnd fill e a qs code b : Forall code_request_ok qs -> (forall x v, a x = Some v -> 0 <= v) -> CodeGenerate rnd fill e a (code_generator qs) = Generated (code, b) ->
  zlen code <= 24576 /\ Forall is_byte code /\ Forall (code_fulfils b code) qs /\
  forall x v, a x = Some v -> b x = Some v \/ In (CodeVar x) qs \/ In (DataVar x) qs.
Proof.
  intros hq ha h. rewrite generator_fields in h. unfold CodeGenerate in h. cbn [varOps constOps varIsCode varIsData] in h.
  destruct (bind_ops a (flat_map var_of qs) (flat_map const_of qs) []) as [[ops vars]|] eqn:eb; [|discriminate].
  apply bind_ops_spec in eb. destruct eb as [b1 b2].
  set (size := code_size e (min_size ops vars (flat_map code_of qs) (flat_map data_of qs))) in h.
  assert (hm : size <= 24576) by apply code_size_max. destruct (Z.ltb_spec size 0); [discriminate|].
  rewrite Forall_forall in hq.
  assert (hbo : bytes_ops ops). { intros p o k. apply b1 in k. destruct k as [k|(x & k & _)]; [apply const_in in k|apply var_in in k]; exact (hq _ k). }
  apply bind_gen in h. destruct h as ([ops' b'] & hs & h).
  (* the solver *)
  assert (S : exists s0 s1 s2 s3, s0 = new_solver ops a /\ ops' = v_ops s3 /\ b' = v_asg s3 /\
     (grows s0 s1 /\ (forall x o, In (x, o) vars -> T size s1 x o) /\ (forall x, (forall o, ~ In (x, o) vars) -> v_asg s1 x = v_asg s0 x)) /\
     solveIsCode rnd size (flat_map code_of qs) s1 = Generated s2 /\
     solveIsData rnd size (flat_map data_of qs) s2 = Generated s3).
  { destruct (negb (_ =? 0)) eqn:en.
    - unfold solve in hs. apply bind_gen in hs. destruct hs as (s1 & h1 & hs). apply bind_gen in hs. destruct hs as (s2 & h2 & hs). apply bind_gen in hs. destruct hs as (s3 & h3 & hs). injection hs as <- <-.
      exists (new_solver ops a), s1, s2, s3. repeat (split; [reflexivity|]). split; [|split; assumption].
      pose proof (solveVarOps_spec rnd size vars (fun _ => None) (new_solver ops a) s1) as h0.
      assert (h0a : forall x o, In (x, o) vars -> 0 <= o < 256) by (intros x o k; apply b2 in k; destruct k as [[]|[k _]]; apply var_in in k; exact (hq _ k)).
      specialize (h0 ltac:(intros x o k; discriminate) h0a h1). clear h1. rename h0 into h1.
      { destruct h1 as (k1 & k2 & k3). split; [exact k1|]. split; [intros x o k; apply k2; left; exact k|exact k3]. }
    - injection hs as <- <-. exists (new_solver ops a), (new_solver ops a), (new_solver ops a), (new_solver ops a).
      rewrite negb_false_iff, Z.eqb_eq in en. unfold zlen in en.
      destruct vars; [|cbn [length] in en; lia]. destruct (flat_map code_of qs); [|cbn [length] in en; lia]. destruct (flat_map data_of qs); [|cbn [length] in en; lia].
      repeat (split; [reflexivity|]). split; [|split; reflexivity]. split; [apply grows_refl; reflexivity|]. split; [intros x o []|reflexivity]. }
  destruct S as (s0 & s1 & s2 & s3 & es0 & eo & ea & (g1 & t1 & u1) & c2 & d3). subst ops' b'.
  destruct (new_solver_inv ops a) as [i0 n0]. rewrite <-es0 in i0, n0.
  assert (i1 : Inv s1) by (apply g1; exact i0).
  (* the code *)
  assert (B : (grows s1 s2 -> grows s2 s3 -> forall p o, In (p, o) (v_ops s3) -> operation_at code p o) /\ b = v_asg s3 /\ zlen code = size /\ (grows s1 s2 -> grows s2 s3 -> Forall is_byte code)).
  { destruct (v_ops s3) as [|c l] eqn:e3.
    - injection h as <- <-. split; [intros _ _ p o []|]. split; [reflexivity|]. split; [rewrite random_bytes_len; lia|]. intros _ _. apply random_bytes_ok.
    - destruct (_ >=? size); [discriminate|]. apply bind_gen in h. destruct h as (code' & h & k). injection k as -> <-.
      assert (X : bytes_ops (v_ops s3) -> zlen ([] ++ code) = size /\ Forall is_byte code /\ forall p o, In (p, o) (sort (fun x y => fst x <? fst y) (c :: l)) -> operation_at ([] ++ code) p o).
      { intros hb3. rewrite e3 in hb3. apply (build_spec size fill (S (Z.to_nat size)) []); [|intros l'; apply start_zero|cbn; lia|exact h]. intros p o k. apply sort_in in k. apply hb3 in k. exact k. }
      cbn [app] in X. split; [|split; [reflexivity|split]].
      + intros g2 g3 p o k. apply X; [apply g3, g2, g1; rewrite es0; exact hbo|]. apply sort_in. exact k.
      + clear X. cut (zlen code = size /\ True); [tauto|]. 
        split; [|exact Logic.I]. apply build_len in h; lia.
      + intros g2 g3. apply X. apply g3, g2, g1. rewrite es0. exact hbo. }
  destruct B as (Bop & -> & Bsz & Bby).
  pose proof (solveIsData_spec rnd size _ _ _ d3) as (g3 & D3 & A3 & _).
  assert (T0 : forall x v, a x = Some v -> v_asg s1 x = Some v).
  { intros x v k. rewrite u1; [rewrite es0; exact k|]. intros o k2. apply b2 in k2. destruct k2 as [[]|[_ k2]]. congruence. }
  assert (C2 : grows s1 s2 /\ (forall x, In x (flat_map code_of qs) -> C size s2 x) /\ (forall x, ~ In x (flat_map code_of qs) \/ C size s1 x -> v_asg s2 x = v_asg s1 x)).
  { apply (solveIsCode_spec rnd size); [|exact c2]. intros x p k. destruct (v_asg s0 x) as [v|] eqn:e0.
    - assert (k0 : a x = Some v) by (rewrite es0 in e0; exact e0). rewrite (T0 x v k0) in k. injection k as <-. exact (ha x v k0).
    - destruct (in_dec Z.eq_dec x (map fst vars)) as [k1|k1].
      + apply in_map_iff in k1. destruct k1 as ([x' o] & k2 & k1). cbn in k2. subst x'. destruct (t1 x o k1) as (p' & k3 & _ & _ & k4). rewrite k in k3. injection k3 as <-. lia.
      + rewrite u1 in k by (intros o k2; apply k1, in_map_iff; exists (x, o); auto). congruence. }
  destruct C2 as (g2 & C2 & A2). specialize (Bop g2 g3). specialize (Bby g2 g3).
  assert (i3 : Inv s3) by (apply g3, g2; exact i1).
  assert (S1 : forall x, C size s1 x -> v_asg s3 x = v_asg s1 x).
  { intros x k. rewrite A3, A2; [reflexivity|auto|]. right. apply (grows_C size s1); auto. }
  assert (U0 : forall x v, a x = Some v -> C size s1 x -> v_asg s3 x = Some v) by (intros x v k1 k2; rewrite S1 by exact k2; apply T0; exact k1).
  split; [lia|]. split; [exact Bby|]. split.
  - apply Forall_forall. intros q hin. destruct q as [p o|x o|x|x]; cbn [code_fulfils].
    + apply Bop. apply g3, g2, g1. rewrite es0. cbn. apply b1. left. apply const_in. exact hin.
    + destruct (a x) as [v|] eqn:ex.
      * assert (ko : In (v, o) ops) by (apply b1; right; exists x; split; [apply var_in; exact hin|exact ex]).
        assert (k3 : In (v, o) (v_ops s3)) by (apply g3, g2, g1; rewrite es0; exact ko). pose proof (Bop v o k3) as op. exists v. split; [|exact op].
        apply (U0 x v ex). exists v. split; [apply T0; exact ex|]. assert (hv : 0 <= v < size) by (destruct op as [_ op]; apply znth_in in op; lia). split; [|exact hv].
        pose proof (n0 v o ko) as k4. destruct g1 as (gi & g1 & _). rewrite (g1 v k4). pose proof (i0 v) as k5. destruct (v_used s0 v); [congruence|reflexivity|].
        exfalso. destruct k5 as (p & o' & k5 & k6). assert (op' : operation_at code p o') by (apply Bop, g3, g2, gi; exact k5).
        pose proof (operations_apart code p o' v o op' op ltac:(lia)). lia.
      * destruct (t1 x o) as (p & k1 & k2 & k3 & k4); [apply b2; right; split; [apply var_in; exact hin|exact ex]|]. exists p. split; [rewrite S1; [exact k1|exists p; auto]|]. apply Bop, g3, g2, k2.
    + destruct (C2 x) as (p & k1 & k2 & k3); [apply code_in; exact hin|].
      assert (c3 : C size s3 x) by (apply (grows_C size s2); [exact g3|apply A3; right; exists p; auto|exists p; auto]). destruct c3 as (p' & k4 & k5 & k6). pose proof (i3 p') as k7. rewrite k5 in k7. destruct k7 as [o k7]. exists p', o. split; [exact k4|apply Bop; exact k7].
    + destruct (D3 x) as (p & k1 & k2 & k3); [apply data_in; exact hin|]. exists p. split; [exact k1|]. split; [lia|]. pose proof (i3 p) as k7. rewrite k2 in k7. destruct k7 as (p' & o & k7 & k8). exact (operation_data code p' o p (Bop p' o k7) k8).
  - intros x v k. destruct (in_dec Z.eq_dec x (flat_map code_of qs)) as [h1|h1]; [right; left; apply code_in; exact h1|]. destruct (in_dec Z.eq_dec x (flat_map data_of qs)) as [h2|h2]; [right; right; apply data_in; exact h2|]. left.
    rewrite A3, A2 by (left; assumption). apply T0. exact k.
Qed.
