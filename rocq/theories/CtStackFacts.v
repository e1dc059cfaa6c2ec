(** Proofs about the stack generator. *)
From Verif Require Import Base Host GoStorage JumpFacts SimBase CtSolve SpecSolve CtSolveFacts CtGen SpecGen.

Lemma tInt_suitable : suitable tInt. Proof. split; [cbn; lia|right; reflexivity]. Qed.
Lemma tInt_range z : in_type tInt z <-> - 2 ^ 63 <= z < 2 ^ 63.
Proof. unfold in_type. change (it_min tInt) with (- 2 ^ 63). change (it_max tInt) with (2 ^ 63 - 1). lia. Qed.

Lemma has_pair_in l v : has_pair l v = true <-> In v l.
Proof.
  unfold has_pair. rewrite existsb_exists. split.
  - intros ([p q] & h1 & h2). destruct v as [p' q']. cbn in h2. replace p' with p by lia. replace q' with q by lia. exact h1.
  - intros h. exists v. split; [exact h|lia].
Qed.

Definition placed (qs : list stack_request) (p : Z) : Prop := (exists v, In (Holds p v) qs) \/ exists x, In (HoldsVar p x) qs.
Definition size_ok (qs : list stack_request) (n : Z) : Prop :=
  forall q, In q qs -> match q with MinSize m => m <= n | MaxSize m => n <= m | Size m => n = m | _ => True end.

Record inv (qs : list stack_request) (g : StackGenerator) : Prop := mkInv {
  i_const : forall p v, In (p, v) (sg_const g) <-> In (Holds p v) qs;
  i_var : forall p x, In (p, x) (sg_var g) <-> In (HoldsVar p x) qs;
  i_nd1 : NoDup (sg_const g);
  i_nd2 : NoDup (sg_var g);
  i_ty1 : in_type tInt (rs_min (sg_size g));
  i_ty2 : in_type tInt (rs_max (sg_size g));
  i_size : forall n, (forall p, placed qs p -> p < n) -> (rs_min (sg_size g) <= n <= rs_max (sg_size g) <-> 0 <= n <= 1024 /\ size_ok qs n)
}.

Lemma max_pos l : forall m0 m, fold_left (fun max (c : Z * Z) => if fst c >? max then fst c else max) l m0 <= m <-> m0 <= m /\ forall c, In c l -> fst c <= m.
Proof.
  induction l as [|c l IH]; intros m0 m; cbn [fold_left].
  - split; [intros h; split; [exact h|intros c []]|intros [h _]; exact h].
  - rewrite IH. split.
    + intros [h1 h2]. split; [destruct (fst c >? m0) eqn:e; lia|]. intros d [<-|hd]; [destruct (fst c >? m0) eqn:e; lia|apply h2; exact hd].
    + intros [h1 h2]. split; [pose proof (h2 c (or_introl eq_refl)); destruct (fst c >? m0); lia|intros d hd; apply h2; right; exact hd].
Qed.

Lemma max_pos_ge l : forall m0, m0 <= fold_left (fun max (c : Z * Z) => if fst c >? max then fst c else max) l m0.
Proof. intros m0. pose proof (proj1 (max_pos l m0 _) (Z.le_refl _)). lia. Qed.

Lemma resolve_spec a : forall vars vs, resolve a vars = Some vs ->
  map fst vs = map fst vars /\ forall p v, In (p, v) vs <-> exists x, In (p, x) vars /\ a x = Some v.
Proof.
  induction vars as [|[p x] vars IH]; cbn [resolve]; intros vs h.
  - inversion h; subst. split; [reflexivity|]. intros p v. split; [intros []|intros (x & [] & _)].
  - destruct (a x) as [v|] eqn:ev; [|discriminate]. destruct (resolve a vars) as [l|]; [|discriminate]. inversion h; subst.
    destruct (IH _ eq_refl) as [A B]. split; [cbn; rewrite A; reflexivity|]. intros p' v'. cbn [In]. rewrite B. split.
    + intros [e|(y & h1 & h2)]; [inversion e; subst; exists x; auto|exists y; auto].
    + intros (y & [e|h1] & h2); [inversion e; subst; left; congruence|right; exists y; auto].
Qed.

Lemma resolve_none a vars : resolve a vars = None -> exists p x, In (p, x) vars /\ a x = None.
Proof.
  induction vars as [|[p x] vars IH]; cbn [resolve]; intros h; [discriminate|].
  destruct (a x) as [v|] eqn:ev; [|exists p, x; split; [left; reflexivity|exact ev]].
  destruct (resolve a vars) as [l|]; [discriminate|]. destruct (IH eq_refl) as (p' & x' & h1 & h2). exists p', x'. split; [right; exact h1|exact h2].
Qed.

(** The lower bound on the size that the positions require. *)
Lemma need_size qs g a vs : inv qs g -> Forall stack_request_ok qs -> resolve a (sg_var g) = Some vs ->
  let M := conv tInt (maxPositionInValues (sg_const g ++ vs) + 1) in
  in_type tInt M /\ forall n, M <= n <-> 0 <= n /\ forall p, placed qs p -> p < n.
Proof.
  intros hi hq hr. destruct (resolve_spec a _ _ hr) as [hp hv].
  set (m := maxPositionInValues (sg_const g ++ vs)). assert (hm : forall k, m <= k <-> -1 <= k /\ forall c, In c (sg_const g ++ vs) -> fst c <= k) by (intros k; apply max_pos).
  assert (hpl : forall k, (forall c, In c (sg_const g ++ vs) -> fst c <= k) <-> forall p, placed qs p -> p <= k).
  { intros k. split.
    - intros hc p [(v & h)|(x & h)].
      + apply (hc (p, v)). apply in_or_app. left. apply (i_const _ _ hi). exact h.
      + apply (i_var _ _ hi) in h. apply (in_map fst) in h. rewrite <- hp in h. apply in_map_iff in h. destruct h as ([p' v] & e & h). cbn in e. subst p'.
        apply (hc (p, v)). apply in_or_app. right. exact h.
    - intros hc [p v] h. apply in_app_or in h. destruct h as [h|h].
      + apply hc. left. exists v. apply (i_const _ _ hi). exact h.
      + apply hc. right. apply (in_map fst) in h. rewrite hp in h. apply in_map_iff in h. destruct h as ([p' x] & e & h). cbn in e. subst p'.
        exists x. apply (i_var _ _ hi). exact h. }
  assert (hb : m <= 2 ^ 63 - 2).
  { apply hm. split; [lia|]. apply hpl. intros p [(v & h)|(x & h)]; rewrite Forall_forall in hq; specialize (hq _ h); cbn in hq; lia. }
  assert (hge : -1 <= m) by (apply max_pos_ge).
  assert (hc : conv tInt (m + 1) = m + 1) by (apply (conv_id tInt tInt_suitable); apply tInt_range; lia).
  cbv zeta. rewrite hc. split; [apply tInt_range; lia|]. intros n. specialize (hm (n - 1)). specialize (hpl (n - 1)).
  assert (m + 1 <= n <-> m <= n - 1) by lia. rewrite H, hm, hpl. split; intros [h1 h2]; (split; [lia|]); intros p h; specialize (h2 p h); lia.
Qed.

Lemma size_ok_app qs q n : size_ok (qs ++ [q]) n <-> size_ok qs n /\ match q with MinSize m => m <= n | MaxSize m => n <= m | Size m => n = m | _ => True end.
Proof.
  unfold size_ok. split.
  - intros h. split; [intros q' hq'; apply (h q'); apply in_or_app; auto|apply (h q); apply in_or_app; right; left; reflexivity].
  - intros [h1 h2] q' hq'. apply in_app_or in hq'. destruct hq' as [hq'|[<-|[]]]; [apply (h1 _ hq')|exact h2].
Qed.

Lemma nodup_snoc {A} (l : list A) x : NoDup l -> ~ In x l -> NoDup (l ++ [x]).
Proof.
  induction l as [|y l IH]; intros h1 h2; cbn; [constructor; [intros []|constructor]|]. inversion h1; subst. constructor.
  - intros h. apply in_app_or in h. destruct h as [h|[<-|[]]]; [auto|]. apply h2. left. reflexivity.
  - apply IH; [assumption|]. intros h. apply h2. right. exact h.
Qed.

Lemma inv_gen : forall qs, Forall stack_request_ok qs -> inv qs (stack_generator qs).
Proof.
  induction qs as [|q qs IH] using rev_ind; intros hq.
  - split.
    + intros p v. cbn. tauto.
    + intros p v. cbn. tauto.
    + constructor.
    + constructor.
    + apply tInt_range. cbn. lia.
    + apply tInt_range. cbn. lia.
    + intros n _. cbn. split; [intros h; split; [exact h|intros q []]|intros [h _]; exact h].
  - assert (hok := proj1 (Forall_app _ _ _) hq). destruct hok as [hq1 hq2]. specialize (IH hq1). inversion hq2 as [|? ? hqq _]; subst.
    unfold stack_generator. rewrite fold_left_app. cbn [fold_left]. fold (stack_generator qs). set (g := stack_generator qs) in *.
    destruct IH as [A B C D E F G].
    assert (hplw : forall n, (forall p, placed (qs ++ [q]) p -> p < n) -> forall p, placed qs p -> p < n).
    { intros n h p [(v & hv)|(x & hx)]; apply h; [left; exists v|right; exists x]; apply in_or_app; left; assumption. }
    assert (hsame1 : (forall p v, q <> Holds p v) -> forall p v, In (Holds p v) (qs ++ [q]) <-> In (Holds p v) qs).
    { intros hn p v. rewrite in_app_iff. cbn. split; [intros [h|[h|[]]]; [exact h|destruct (hn p v h)]|auto]. }
    assert (hsame2 : (forall p v, q <> HoldsVar p v) -> forall p v, In (HoldsVar p v) (qs ++ [q]) <-> In (HoldsVar p v) qs).
    { intros hn p v. rewrite in_app_iff. cbn. split; [intros [h|[h|[]]]; [exact h|destruct (hn p v h)]|auto]. }
    destruct q as [m|m|m|p v|p x|a]; cbn [stack_request_call stack_request_ok] in *.
    + split; cbn [AddMinSize sg_const sg_var sg_size]; try assumption.
      * intros p v. rewrite hsame1 by congruence. apply A.
      * intros p v. rewrite hsame2 by congruence. apply B.
      * unfold RangeAddLower. destruct (m >? rs_min (sg_size g)); cbn [rs_min]; [apply tInt_range; lia|exact E].
      * unfold RangeAddLower. destruct (m >? rs_min (sg_size g)); cbn [rs_max]; exact F.
      * intros n hn. specialize (G n (hplw n hn)). rewrite size_ok_app.
        assert (rs_min (RangeAddLower m (sg_size g)) <= n <= rs_max (RangeAddLower m (sg_size g)) <-> rs_min (sg_size g) <= n <= rs_max (sg_size g) /\ m <= n)
          by apply (range_add_sound (sg_size g) (AtLeast m) n Logic.I). tauto.
    + split; cbn [AddMaxSize sg_const sg_var sg_size]; try assumption.
      * intros p v. rewrite hsame1 by congruence. apply A.
      * intros p v. rewrite hsame2 by congruence. apply B.
      * unfold RangeAddUpper. destruct (m <? rs_max (sg_size g)); cbn [rs_min]; exact E.
      * unfold RangeAddUpper. destruct (m <? rs_max (sg_size g)); cbn [rs_max]; [apply tInt_range; lia|exact F].
      * intros n hn. specialize (G n (hplw n hn)). rewrite size_ok_app.
        assert (rs_min (RangeAddUpper m (sg_size g)) <= n <= rs_max (RangeAddUpper m (sg_size g)) <-> rs_min (sg_size g) <= n <= rs_max (sg_size g) /\ n <= m)
          by apply (range_add_sound (sg_size g) (AtMost m) n Logic.I). tauto.
    + split; cbn [SetSize sg_const sg_var sg_size]; try assumption.
      * intros p v. rewrite hsame1 by congruence. apply A.
      * intros p v. rewrite hsame2 by congruence. apply B.
      * unfold RangeAddEqual, RangeAddUpper, RangeAddLower. destruct (m >? rs_min (sg_size g)); cbn [rs_min rs_max]; destruct (m <? rs_max (sg_size g)); cbn [rs_min]; first [exact E|apply tInt_range; lia].
      * unfold RangeAddEqual, RangeAddUpper, RangeAddLower. destruct (m >? rs_min (sg_size g)); cbn [rs_min rs_max]; destruct (m <? rs_max (sg_size g)); cbn [rs_max]; first [exact F|apply tInt_range; lia].
      * intros n hn. specialize (G n (hplw n hn)). rewrite size_ok_app.
        assert (rs_min (RangeAddEqual m (sg_size g)) <= n <= rs_max (RangeAddEqual m (sg_size g)) <-> rs_min (sg_size g) <= n <= rs_max (sg_size g) /\ n = m)
          by apply (range_add_sound (sg_size g) (Exactly m) n Logic.I). tauto.
    + unfold SetValue. destruct (has_pair (sg_const g) (p, v)) eqn:eh.
      * apply has_pair_in, A in eh. split; try assumption.
        -- intros p' v'. rewrite A, in_app_iff. cbn. split; [auto|intros [h|[h|[]]]; [exact h|inversion h; subst; exact eh]].
        -- intros p' v'. rewrite hsame2 by congruence. apply B.
        -- intros n hn. rewrite size_ok_app. specialize (G n (hplw n hn)). tauto.
      * assert (hni : ~ In (p, v) (sg_const g)) by (rewrite <- has_pair_in, eh; discriminate).
        split; cbn [sg_const sg_var sg_size]; try assumption.
        -- intros p' v'. rewrite !in_app_iff, A. cbn. split; (intros [h|[h|[]]]; [auto|inversion h; subst; auto]).
        -- intros p' v'. rewrite hsame2 by congruence. apply B.
        -- apply nodup_snoc; assumption.
        -- intros n hn. rewrite size_ok_app. specialize (G n (hplw n hn)). tauto.
    + unfold BindValue. destruct (has_pair (sg_var g) (p, x)) eqn:eh.
      * apply has_pair_in, B in eh. split; try assumption.
        -- intros p' v'. rewrite hsame1 by congruence. apply A.
        -- intros p' v'. rewrite B, in_app_iff. cbn. split; [auto|intros [h|[h|[]]]; [exact h|inversion h; subst; exact eh]].
        -- intros n hn. rewrite size_ok_app. specialize (G n (hplw n hn)). tauto.
      * assert (hni : ~ In (p, x) (sg_var g)) by (rewrite <- has_pair_in, eh; discriminate).
        split; cbn [sg_const sg_var sg_size]; try assumption.
        -- intros p' v'. rewrite hsame1 by congruence. apply A.
        -- intros p' v'. rewrite !in_app_iff, B. cbn. split; (intros [h|[h|[]]]; [auto|inversion h; subst; auto]).
        -- apply nodup_snoc; assumption.
        -- intros n hn. rewrite size_ok_app. specialize (G n (hplw n hn)). tauto.
    + assert (A' : forall p v, In (p, v) (sg_const g) <-> In (Holds p v) (qs ++ [Ran a])) by (intros p v; rewrite hsame1 by congruence; apply A).
      assert (B' : forall p v, In (p, v) (sg_var g) <-> In (HoldsVar p v) (qs ++ [Ran a])) by (intros p v; rewrite hsame2 by congruence; apply B).
      unfold after_generate. destruct (resolve a (sg_var g)) as [vs|] eqn:er.
      * destruct (need_size qs g a vs (mkInv _ _ A B C D E F G) hq1 er) as [hM1 hM2].
        set (M := conv tInt (maxPositionInValues (sg_const g ++ vs) + 1)) in *.
        split; cbn [sg_const sg_var sg_size]; try assumption.
        -- unfold RangeAddLower. destruct (M >? rs_min (sg_size g)); cbn [rs_min]; [exact hM1|exact E].
        -- unfold RangeAddLower. destruct (M >? rs_min (sg_size g)); cbn [rs_max]; exact F.
        -- intros n hn. rewrite size_ok_app. specialize (G n (hplw n hn)). specialize (hM2 n).
           assert (rs_min (RangeAddLower M (sg_size g)) <= n <= rs_max (RangeAddLower M (sg_size g)) <-> rs_min (sg_size g) <= n <= rs_max (sg_size g) /\ M <= n)
             by apply (range_add_sound (sg_size g) (AtLeast M) n Logic.I).
           assert (h2 := hplw n hn). tauto.
      * split; try assumption. intros n hn. rewrite size_ok_app. specialize (G n (hplw n hn)). tauto.
Qed.

Lemma apply_ok : forall l stack mask, length stack = length mask -> (forall c, In c l -> fst c < zlen mask) ->
  match apply_values l stack mask with
  | Generated (s', m') => length s' = length stack /\ length m' = length mask /\ NoDup (map fst l) /\
      (forall p v, In (p, v) l -> znth s' p = Some v /\ znth m' p = Some true /\ znth mask p = Some false) /\
      (forall p, ~ In p (map fst l) -> znth s' p = znth stack p /\ znth m' p = znth mask p)
  | ErrUnsatisfiable => (exists p v, In (p, v) l /\ (p < 0 \/ znth mask p = Some true)) \/ ~ NoDup (map fst l)
  | _ => False
  end.
Proof.
  induction l as [|[p v] l IH]; intros stack mask hl hb; cbn [apply_values].
  - repeat split; try constructor; try (intros; contradiction); cbn in *; tauto.
  - destruct (Z.ltb_spec p 0) as [e|e]; [left; exists p, v; split; [left; reflexivity|left; exact e]|].
    pose proof (hb (p, v) (or_introl eq_refl)) as hp. cbn [fst] in hp.
    destruct (znth mask p) as [[|]|] eqn:em.
    + left. exists p, v. split; [left; reflexivity|right; exact em].
    + assert (hm : 0 <= p < zlen mask) by lia. assert (hs : 0 <= p < zlen stack) by (unfold zlen in *; lia).
      specialize (IH (list_upd stack (Z.to_nat p) v) (list_upd mask (Z.to_nat p) true)). rewrite !list_upd_length in IH. specialize (IH hl).
      assert (hb' : forall c, In c l -> fst c < zlen (list_upd mask (Z.to_nat p) true)) by (intros c hc; rewrite list_upd_zlen; apply hb; right; exact hc).
      specialize (IH hb'). destruct (apply_values l _ _) as [[s' m']| | | |] eqn:ea; try contradiction.
      * destruct IH as (h1 & h2 & h3 & h4 & h5).
        assert (hni : ~ In p (map fst l)).
        { intros hin. apply in_map_iff in hin. destruct hin as ([p' v'] & e1 & h). cbn in e1. subst p'. destruct (h4 p v' h) as (_ & _ & h6).
          rewrite znth_list_upd in h6 by exact hm. rewrite Z.eqb_refl in h6. discriminate. }
        split; [exact h1|]. split; [exact h2|]. split; [cbn; constructor; assumption|]. split.
        -- intros p' v' [h|h].
           ++ inversion h; subst. destruct (h5 p' hni) as [h6 h7]. rewrite h6, h7, !znth_list_upd by assumption. rewrite Z.eqb_refl. auto.
           ++ destruct (h4 p' v' h) as (h6 & h7 & h8). split; [exact h6|]. split; [exact h7|]. rewrite znth_list_upd in h8 by exact hm.
              destruct (p' =? p) eqn:e2; [discriminate|exact h8].
        -- intros p' hn. cbn in hn. destruct (h5 p' ltac:(tauto)) as [h6 h7]. rewrite h6, h7, !znth_list_upd by assumption.
           destruct (Z.eqb_spec p' p) as [e2|e2]; [subst; tauto|auto].
      * destruct IH as [(p' & v' & h & [h1|h1])|h].
        -- left. exists p', v'. split; [right; exact h|left; exact h1].
        -- rewrite znth_list_upd in h1 by exact hm. destruct (Z.eqb_spec p' p) as [e2|e2].
           ++ right. subst. cbn. intros hn. inversion hn as [|? ? h2 h3]; subst. apply h2. apply (in_map fst) in h. exact h.
           ++ left. exists p', v'. split; [right; exact h|right; exact h1].
        -- right. cbn. intros hn. inversion hn; subst. tauto.
    + apply znth_none in em. lia.
Qed.

Lemma fill_nth fill : forall stack mask i, length stack = length mask ->
  length (fill_rest fill i stack mask) = length stack /\
  forall k, nth_error (fill_rest fill i stack mask) k =
    match nth_error mask k with Some true => nth_error stack k | Some false => Some (fill (i + k)%nat) | None => None end.
Proof.
  induction stack as [|v stack IH]; destruct mask as [|b mask]; intros i hl; cbn in hl; try discriminate.
  - split; [reflexivity|]. intros [|k]; reflexivity.
  - cbn [fill_rest]. injection hl as hl. destruct (IH mask (S i) hl) as [h1 h2]. split; [cbn; rewrite h1; reflexivity|].
    intros [|k]; cbn [nth_error].
    + destruct b; [reflexivity|]. rewrite Nat.add_0_r. reflexivity.
    + rewrite h2. replace (S i + k)%nat with (i + S k)%nat by lia. reflexivity.
Qed.

Lemma nodup_fst (l : list (Z * Z)) : NoDup l -> (forall p v w, In (p, v) l -> In (p, w) l -> v = w) -> NoDup (map fst l).
Proof.
  induction l as [|[p v] l IH]; intros h1 h2; cbn; constructor.
  - inversion h1 as [|? ? h3 h4]; subst. intros h. apply in_map_iff in h. destruct h as ([p' w] & e & h). cbn in e. subst p'.
    assert (v = w) by (apply (h2 p); [left; reflexivity|right; exact h]). subst. contradiction.
  - inversion h1; subst. apply IH; [assumption|]. intros q a b ha hb. apply (h2 q); right; assumption.
Qed.
Lemma nodup_append {A} (l m : list A) : NoDup l -> NoDup m -> (forall x, In x l -> In x m -> False) -> NoDup (l ++ m).
Proof.
  induction l as [|x l IH]; intros h1 h2 h3; cbn; [exact h2|]. inversion h1; subst. constructor.
  - intros h. apply in_app_or in h. destruct h as [h|h]; [contradiction|]. apply (h3 x); [left; reflexivity|exact h].
  - apply IH; [assumption|assumption|]. intros y hy hz. apply (h3 y); [right; exact hy|exact hz].
Qed.

Lemma list_nth_error_ext {A} : forall l m : list A, (forall k, nth_error l k = nth_error m k) -> l = m.
Proof.
  induction l as [|x l IH]; intros [|y m] h; [reflexivity|specialize (h 0%nat); discriminate|specialize (h 0%nat); discriminate|].
  pose proof (h 0%nat) as h0. cbn in h0. injection h0 as ->. f_equal. apply IH. intros k. apply (h (S k)).
Qed.

Section Gen.
Variables (qs : list stack_request) (a : Assignment) (old : list Z).
Hypothesis hq : Forall stack_request_ok qs.
Hypothesis hold : 1024 <= zlen old.
Let g := stack_generator qs.

Lemma fits_size l : stack_fits a qs l -> 0 <= zlen l <= 1024 /\ size_ok qs (zlen l) /\ forall p, placed qs p -> p < zlen l.
Proof.
  intros [h1 h2]. rewrite Forall_forall in h2. split; [unfold zlen in *; lia|]. split.
  - intros q hin. specialize (h2 q hin). destruct q; cbn in h2; auto.
  - intros p [(v & h)|(x & h)]; specialize (h2 _ h); cbn in h2; [apply znth_in in h2; lia|destruct h2 as (v & _ & h2); apply znth_in in h2; lia].
Qed.

Lemma fits_positions l vs : stack_fits a qs l -> resolve a (sg_var g) = Some vs -> ~ described_twice qs -> NoDup (map fst (sg_const g ++ vs)).
Proof.
  intros hf hr ht. pose proof (inv_gen qs hq) as hi. fold g in hi. destruct (resolve_spec a _ _ hr) as [hp hv]. destruct hf as [_ hf]. rewrite Forall_forall in hf.
  rewrite map_app, hp. apply nodup_append.
  - apply nodup_fst; [apply (i_nd1 _ _ hi)|]. intros p v w h1 h2. apply (i_const _ _ hi), hf in h1, h2. cbn in h1, h2. congruence.
  - apply nodup_fst; [apply (i_nd2 _ _ hi)|]. intros p x y h1 h2. apply (i_var _ _ hi) in h1, h2.
    destruct (Z.eq_dec y x) as [e|e]; [auto|]. exfalso. apply ht. exists p, x. split; [exact h1|]. right. exists y. auto.
  - intros p h1 h2. apply in_map_iff in h1, h2. destruct h1 as ([p1 v] & e1 & h1). destruct h2 as ([p2 x] & e2 & h2). cbn in e1, e2. subst p1 p2.
    apply (i_const _ _ hi) in h1. apply (i_var _ _ hi) in h2. apply ht. exists p, x. split; [exact h2|left; exists v; exact h1].
Qed.

Lemma constraint_fits l vs p v : stack_fits a qs l -> resolve a (sg_var g) = Some vs -> In (p, v) (sg_const g ++ vs) -> znth l p = Some v.
Proof.
  intros [_ hf] hr h. pose proof (inv_gen qs hq) as hi. fold g in hi. destruct (resolve_spec a _ _ hr) as [hp hv]. rewrite Forall_forall in hf. apply in_app_or in h. destruct h as [h|h].
  - apply (i_const _ _ hi), hf in h. exact h.
  - apply hv in h. destruct h as (x & h1 & h2). apply (i_var _ _ hi), hf in h1. cbn in h1. destruct h1 as (w & h3 & h4). congruence.
Qed.

(** The solver of the size with the bound from the positions. *)
Lemma size_solutions vs : resolve a (sg_var g) = Some vs ->
  let s := RangeAddLower (conv tInt (maxPositionInValues (sg_const g ++ vs) + 1)) (sg_size g) in
  (in_type tInt (rs_min s) /\ in_type tInt (rs_max s)) /\
  forall n, rs_min s <= n <= rs_max s <-> 0 <= n <= 1024 /\ size_ok qs n /\ forall p, placed qs p -> p < n.
Proof.
  intros hr. pose proof (inv_gen qs hq) as hi. fold g in hi. destruct (need_size qs g a vs hi hq hr) as [h1 h2]. cbv zeta.
  set (M := conv tInt (maxPositionInValues (sg_const g ++ vs) + 1)) in *. split; [|].
  - unfold RangeAddLower. destruct (M >? rs_min (sg_size g)); cbn [rs_min rs_max]; split; try assumption; apply hi.
  - intros n. assert (rs_min (RangeAddLower M (sg_size g)) <= n <= rs_max (RangeAddLower M (sg_size g)) <-> rs_min (sg_size g) <= n <= rs_max (sg_size g) /\ M <= n)
      by apply (range_add_sound (sg_size g) (AtLeast M) n Logic.I).
    rewrite H, h2. pose proof (i_size _ _ hi n) as h3. split; [intros (A & B & C); specialize (h3 C); tauto|intros (A & B & C); specialize (h3 C); tauto].
Qed.

Lemma znth_repeat k p : znth (repeat false k) p = Some true -> False.
Proof. unfold znth. destruct (p <? 0); [discriminate|]. intros h. apply nth_error_In, repeat_spec in h. discriminate. Qed.

Theorem stack_generate_sound r fill : proper r ->
  match StackGenerate r fill old a g with
  | Generated l => stack_fits a qs l
  | ErrUnsatisfiable => forall l, stack_fits a qs l -> described_twice qs
  | ErrUnboundVariable => exists p x, In (HoldsVar p x) qs /\ a x = None
  | Panics | Running => False
  end.
Proof.
  intros hr. pose proof (inv_gen qs hq) as hi. fold g in hi. unfold StackGenerate. destruct (resolve a (sg_var g)) as [vs|] eqn:er.
  2:{ apply resolve_none in er. destruct er as (p & x & h1 & h2). exists p, x. split; [apply (i_var _ _ hi); exact h1|exact h2]. }
  destruct (size_solutions vs er) as [[t1 t2] hsol]. set (s := RangeAddLower _ (sg_size g)) in *.
  destruct (range_generates tInt tInt_suitable s t1 t2) as [hg _]. specialize (hg r hr). cbn beta in hg.
  destruct (RangeGenerate tInt r s) as [n| |]; [|intros l hl; exfalso; apply (hg (zlen l)), hsol, fits_size; exact hl|contradiction].
  apply hsol in hg. destruct hg as (hn & hok & hpos).
  replace ((n <? 0) || (n >? zlen old)) with false by (symmetry; apply orb_false_iff; lia).
  set (st := firstn (Z.to_nat n) old). set (mk := repeat false (Z.to_nat n)).
  assert (hlen : length st = length mk) by (unfold st, mk; rewrite firstn_length, repeat_length; unfold zlen in *; lia).
  assert (hmk : zlen mk = n) by (unfold mk, zlen; rewrite repeat_length; lia).
  destruct (resolve_spec a _ _ er) as [hp hv].
  assert (hbnd : forall c, In c (sg_const g ++ vs) -> fst c < zlen mk).
  { intros [p v] hc. rewrite hmk. apply hpos. apply in_app_or in hc. destruct hc as [hc|hc].
    - left. exists v. apply (i_const _ _ hi). exact hc.
    - apply hv in hc. destruct hc as (x & h1 & _). right. exists x. apply (i_var _ _ hi). exact h1. }
  pose proof (apply_ok _ st mk hlen hbnd) as ha. destruct (apply_values (sg_const g ++ vs) st mk) as [[s' m']| | | |]; cbn [gbind]; try contradiction.
  - destruct ha as (h1 & h2 & h3 & h4 & h5). destruct (fill_nth fill s' m' 0 ltac:(lia)) as [hf1 hf2].
    assert (hz : zlen (fill_rest fill 0 s' m') = n) by (unfold zlen in *; rewrite hf1, h1, hlen; exact hmk).
    assert (hval : forall p v, In (p, v) (sg_const g ++ vs) -> znth (fill_rest fill 0 s' m') p = Some v).
    { intros p v h. destruct (h4 p v h) as (h6 & h7 & _). unfold znth in *. destruct (p <? 0); [discriminate|]. rewrite hf2, h7. exact h6. }
    split; [lia|]. apply Forall_forall. intros q hin. specialize (hok q hin). destruct q as [m|m|m|p v|p x|b]; cbn; try lia.
    + apply hval, in_or_app. left. apply (i_const _ _ hi). exact hin.
    + apply (i_var _ _ hi) in hin. pose proof (in_map fst _ _ hin) as hm. rewrite <- hp in hm.
      destruct (a x) as [v|] eqn:ex; [|exfalso].
      * exists v. split; [reflexivity|]. apply hval, in_or_app. right. apply hv. exists x. auto.
      * clear -er hin ex. revert vs er. generalize dependent (sg_var g). induction l as [|[p' y] l IH]; intros hin vs er; [destruct hin|].
        cbn in er. destruct (a y) eqn:ey; [|discriminate]. destruct (resolve a l) eqn:el; [|discriminate].
        destruct hin as [e|hin]; [inversion e; subst; congruence|]. apply (IH hin _ eq_refl).
  - intros l hl. destruct ha as [(p & v & h & [hneg|htrue])|hnd].
    + pose proof (constraint_fits l vs p v hl er h) as hz. apply znth_in in hz. lia.
    + destruct (znth_repeat _ _ htrue).
    + (* decide described_twice *)
      destruct (Forall_Exists_dec (fun q => match q with HoldsVar p x => ~ ((exists v, In (Holds p v) qs) \/ exists y, y <> x /\ In (HoldsVar p y) qs) | _ => True end)) with (l := qs) as [hno|hyes].
      * intros [m|m|m|p v|p x|b]; try (left; exact Logic.I).
        assert (hd1 : forall l, {exists v, In (Holds p v) l} + {~ exists v, In (Holds p v) l}).
        { induction l0 as [|q l0 IH]; [right; intros (v & [])|]. destruct IH as [IH|IH]; [left; destruct IH as (v & h); exists v; right; exact h|].
          destruct q as [m|m|m|p' v'|p' x'|b]; try (right; intros (v & [h|h]); [discriminate|apply IH; exists v; exact h]).
          destruct (Z.eq_dec p' p) as [->|e]; [left; exists v'; left; reflexivity|right; intros (v & [h|h]); [congruence|apply IH; exists v; exact h]]. }
        assert (hd2 : forall l, {exists y, y <> x /\ In (HoldsVar p y) l} + {~ exists y, y <> x /\ In (HoldsVar p y) l}).
        { induction l0 as [|q l0 IH]; [right; intros (v & _ & [])|]. destruct IH as [IH|IH]; [left; destruct IH as (v & hy & h); exists v; split; [exact hy|right; exact h]|].
          destruct q as [m|m|m|p' v'|p' x'|b]; try (right; intros (v & hy & [h|h]); [discriminate|apply IH; exists v; auto]).
          destruct (Z.eq_dec p' p) as [->|e]; [|right; intros (v & hy & [h|h]); [congruence|apply IH; exists v; auto]].
          destruct (Z.eq_dec x' x) as [->|e]; [right; intros (v & hy & [h|h]); [congruence|apply IH; exists v; auto]|left; exists x'; split; [exact e|left; reflexivity]]. }
        destruct (hd1 qs) as [h1|h1]; [right; tauto|]. destruct (hd2 qs) as [h2|h2]; [right; tauto|left; tauto].
      * exfalso. apply hnd, (fits_positions l); [exact hl|exact er|]. intros (p & x & h1 & h2). rewrite Forall_forall in hno. exact (hno _ h1 h2).
      * apply Exists_exists in hyes. destruct hyes as (q & h1 & h2). destruct q as [m|m|m|p v|p x|b]; try tauto.
        exists p, x. split; [exact h1|]. 
        assert (hd1 : forall l, (exists v, In (Holds p v) l) \/ (~ exists v, In (Holds p v) l)).
        { induction l0 as [|q l0 IH]; [right; intros (v & [])|]. destruct IH as [IH|IH]; [left; destruct IH as (v & h); exists v; right; exact h|].
          destruct q as [m|m|m|p' v'|p' x'|b]; try (right; intros (v & [h|h]); [discriminate|apply IH; exists v; exact h]).
          destruct (Z.eq_dec p' p) as [->|e]; [left; exists v'; left; reflexivity|right; intros (v & [h|h]); [congruence|apply IH; exists v; exact h]]. }
        assert (hd2 : forall l, (exists y, y <> x /\ In (HoldsVar p y) l) \/ ~ exists y, y <> x /\ In (HoldsVar p y) l).
        { induction l0 as [|q l0 IH]; [right; intros (v & _ & [])|]. destruct IH as [IH|IH]; [left; destruct IH as (v & hy & h); exists v; split; [exact hy|right; exact h]|].
          destruct q as [m|m|m|p' v'|p' x'|b]; try (right; intros (v & hy & [h|h]); [discriminate|apply IH; exists v; auto]).
          destruct (Z.eq_dec p' p) as [->|e]; [|right; intros (v & hy & [h|h]); [congruence|apply IH; exists v; auto]].
          destruct (Z.eq_dec x' x) as [->|e]; [right; intros (v & hy & [h|h]); [congruence|apply IH; exists v; auto]|left; exists x'; split; [exact e|left; reflexivity]]. }
        destruct (hd1 qs) as [h3|h3]; [left; exact h3|]. destruct (hd2 qs) as [h4|h4]; [right; exact h4|]. exfalso. apply h2. tauto.
Qed.

Theorem stack_generate_complete l : stack_fits a qs l -> ~ described_twice qs ->
  exists r fill, proper r /\ StackGenerate r fill old a g = Generated l.
Proof.
  intros hl ht. pose proof (inv_gen qs hq) as hi. fold g in hi. unfold StackGenerate. destruct (resolve a (sg_var g)) as [vs|] eqn:er.
  2:{ apply resolve_none in er. destruct er as (p & x & h1 & h2). apply (i_var _ _ hi) in h1. destruct hl as [_ hl]. rewrite Forall_forall in hl. apply hl in h1. cbn in h1. destruct h1 as (v & h1 & _). congruence. }
  destruct (size_solutions vs er) as [[t1 t2] hsol]. set (s := RangeAddLower _ (sg_size g)) in *.
  destruct (fits_size l hl) as (hn & hok & hpos).
  destruct (range_generates tInt tInt_suitable s t1 t2) as [_ hg]. destruct (hg (zlen l) (proj2 (hsol _) (conj hn (conj hok hpos)))) as (r & hr & er2).
  exists r, (fun i => nth i l 0). split; [exact hr|]. rewrite er2.
  replace ((zlen l <? 0) || (zlen l >? zlen old)) with false by (symmetry; apply orb_false_iff; lia).
  set (st := firstn (Z.to_nat (zlen l)) old). set (mk := repeat false (Z.to_nat (zlen l))).
  assert (hlen : length st = length mk) by (unfold st, mk; rewrite firstn_length, repeat_length; unfold zlen in *; lia).
  assert (hmk : zlen mk = zlen l) by (unfold mk, zlen; rewrite repeat_length; lia).
  assert (hbnd : forall c, In c (sg_const g ++ vs) -> fst c < zlen mk).
  { intros [p v] hc. rewrite hmk. pose proof (constraint_fits l vs p v hl er hc) as h. apply znth_in in h. cbn. lia. }
  pose proof (apply_ok _ st mk hlen hbnd) as ha. destruct (apply_values (sg_const g ++ vs) st mk) as [[s' m']| | | |]; cbn [gbind]; try contradiction.
  - destruct ha as (h1 & h2 & h3 & h4 & h5). f_equal. destruct (fill_nth (fun i => nth i l 0) s' m' 0 ltac:(lia)) as [hf1 hf2].
    apply list_nth_error_ext. intros k. rewrite hf2.
    assert (hml : length m' = length l) by (unfold zlen in *; lia).
    destruct (nth_error m' k) as [b|] eqn:em.
    2:{ apply nth_error_None in em. symmetry. apply nth_error_None. lia. }
    assert (hk : (k < length l)%nat) by (rewrite <- hml; apply nth_error_Some; congruence).
    assert (hzm : znth m' (Z.of_nat k) = Some b) by (unfold znth; destruct (Z.ltb_spec (Z.of_nat k) 0); [lia|]; rewrite Nat2Z.id; exact em).
    destruct b.
    + destruct (in_dec Z.eq_dec (Z.of_nat k) (map fst (sg_const g ++ vs))) as [hin|hnin].
      * apply in_map_iff in hin. destruct hin as ([p v] & e & hin). cbn in e. subst p. destruct (h4 _ _ hin) as (h6 & _ & _).
        pose proof (constraint_fits l vs _ _ hl er hin) as h7. unfold znth in h6, h7. destruct (Z.ltb_spec (Z.of_nat k) 0); [lia|]. rewrite Nat2Z.id in *. congruence.
      * destruct (h5 _ hnin) as [_ h6]. rewrite h6 in hzm. destruct (znth_repeat _ _ hzm).
    + symmetry. cbn. apply nth_error_nth'. exact hk.
  - exfalso. destruct ha as [(p & v & h & [hneg|htrue])|hnd].
    + pose proof (constraint_fits l vs p v hl er h) as hz. apply znth_in in hz. lia.
    + destruct (znth_repeat _ _ htrue).
    + apply hnd, (fits_positions l); assumption.
Qed.

End Gen.
