(** Facts about the generator of block contexts. *)
From Verif Require Import Base CtSolve SpecSolve CtSolveFacts CtGen SpecGen CtStackFacts CtContext SpecContext CtTransientFacts CtContextFacts.
From Coq Require Import Lia ZArith List Bool Permutation.
Import ListNotations.
Open Scope Z_scope.

Definition uint (n : Z) : Prop := 0 <= n < 2 ^ 64.

(** ** revisions *)
Lemma revision_block n : uint n -> GetRevisionForBlock n = revision_at n.
Proof.
  intros h. unfold uint in h. unfold GetRevisionForBlock, revision_at. cbn [revision_loop].
  change (GetForkBlock 0) with 0. change (GetForkBlock (0 + 1)) with 1000. change (GetForkBlock (0 + 1 + 1)) with 2000. change (GetForkBlock (0 + 1 + 1 + 1)) with 3000.
  change (GetForkBlock (0 + 1 + 1 + 1 + 1)) with 4000. change (GetForkBlock (0 + 1 + 1 + 1 + 1 + 1)) with 5000. change (GetForkBlock (0 + 1 + 1 + 1 + 1 + 1 + 1)) with 6000.
  destruct (Z.ltb_spec n 0); [lia|].
  destruct (Z.ltb_spec n 1000); [destruct (Z.ltb_spec n 6000); [|lia]; pose proof (Z.div_unique n 1000 0 n ltac:(lia) ltac:(lia)); lia|].
  destruct (Z.ltb_spec n 2000); [destruct (Z.ltb_spec n 6000); [|lia]; pose proof (Z.div_unique n 1000 1 (n - 1000) ltac:(lia) ltac:(lia)); lia|].
  destruct (Z.ltb_spec n 3000); [destruct (Z.ltb_spec n 6000); [|lia]; pose proof (Z.div_unique n 1000 2 (n - 2000) ltac:(lia) ltac:(lia)); lia|].
  destruct (Z.ltb_spec n 4000); [destruct (Z.ltb_spec n 6000); [|lia]; pose proof (Z.div_unique n 1000 3 (n - 3000) ltac:(lia) ltac:(lia)); lia|].
  destruct (Z.ltb_spec n 5000); [destruct (Z.ltb_spec n 6000); [|lia]; pose proof (Z.div_unique n 1000 4 (n - 4000) ltac:(lia) ltac:(lia)); lia|].
  destruct (Z.ltb_spec n 6000); [pose proof (Z.div_unique n 1000 5 (n - 5000) ltac:(lia) ltac:(lia)); lia|reflexivity].
Qed.
Definition known (r : Z) : Prop := 0 <= r <= 5 \/ r = 99.
Lemma known_cases r : known r -> r = 0 \/ r = 1 \/ r = 2 \/ r = 3 \/ r = 4 \/ r = 5 \/ r = 99.
Proof. unfold known. lia. Qed.
Lemma revision_known n : uint n -> known (revision_at n) /\ (n < 6000 -> 1000 * revision_at n <= n < 1000 * revision_at n + 1000).
Proof.
  intros h. unfold uint in h. unfold known, revision_at. destruct (Z.ltb_spec n 6000); [|split; [right; reflexivity|lia]].
  pose proof (Z.div_mod n 1000 ltac:(lia)). pose proof (Z.mod_pos_bound n 1000 ltac:(lia)). split; [left|intros _]; lia.
Qed.
Definition last_block (hi : Z) : Z :=
  if GetBlockRangeLengthFor hi >=? uint64 (2 ^ 64 - 1 - GetForkBlock hi) then 2 ^ 64 - 1 else uint64 (GetForkBlock hi + uint64 (GetBlockRangeLengthFor hi - 1)).
Lemma revision_bounds lo hi : known lo -> known hi -> uint (GetForkBlock lo) /\ uint (last_block hi) /\
  forall n, uint n -> (GetForkBlock lo <= n <= last_block hi <-> lo <= revision_at n <= hi).
Proof.
  intros hlo hhi. assert (e : last_block hi = if hi =? 99 then 2 ^ 64 - 1 else 1000 * hi + 999) by (destruct (known_cases hi hhi) as [->|[->|[->|[->|[->|[-> | ->]]]]]]; vm_compute; reflexivity).
  assert (e' : GetForkBlock lo = if lo =? 99 then 6000 else 1000 * lo) by (destruct (known_cases lo hlo) as [->|[->|[->|[->|[->|[-> | ->]]]]]]; vm_compute; reflexivity).
  rewrite e, e'. unfold uint, known in *. split; [destruct (Z.eqb_spec lo 99); lia|]. split; [destruct (Z.eqb_spec hi 99); lia|].
  intros n hn. destruct (revision_known n hn) as [hk hr]. unfold known in hk. unfold revision_at in *.
  destruct (Z.ltb_spec n 6000) as [h|h], (Z.eqb_spec lo 99), (Z.eqb_spec hi 99); try specialize (hr h); lia.
Qed.

(** ** the generator after requests *)
Definition range_request (e : Z * bool) : block_request := if snd e then OneOfLast256 (fst e) else NoneOfLast256 (fst e).
Definition in_bounds (s : option RangeSolver) (n : Z) : Prop := match s with Some s => rs_min s <= n <= rs_max s | None => True end.
Definition typed_bounds (s : option RangeSolver) : Prop := match s with Some s => uint (rs_min s) /\ uint (rs_max s) | None => True end.
Record lists (g : BlockGenerator) (qs : list block_request) : Prop := {
  l_sat : bg_unsat g = false;
  l_typed : typed_bounds (bg_solver g);
  l_bounds : forall n, uint n -> (in_bounds (bg_solver g) n <-> forall lo hi, In (Revisions lo hi) qs -> lo <= revision_at n <= hi);
  l_range : forall x h, In (x, h) (bg_range g) <-> In (range_request (x, h)) qs;
  l_value : forall x o, In (x, o) (bg_value g) <-> In (Offset x o) qs;
  l_nodup : NoDup (map fst (bg_range g));
  l_nodup' : NoDup (map fst (bg_value g)) }.
Definition hopeless (qs : list block_request) : Prop := forall n b, uint n -> ~ Forall (block_fulfils n b) qs.

Lemma lookup_offset_none l x : lookup_offset l x = None -> ~ In x (map fst l).
Proof.
  unfold lookup_offset. destruct (find (fun p => fst p =? x) l) eqn:e; [discriminate|]. intros _ hi. apply in_map_iff in hi. destruct hi as (p & hp & hi).
  pose proof (find_none _ _ e p hi) as n. cbn in n. rewrite hp, Z.eqb_refl in n. discriminate.
Qed.
Lemma lookup_offset_some l x v : lookup_offset l x = Some v -> In (x, v) l.
Proof.
  unfold lookup_offset. destruct (find (fun p => fst p =? x) l) as [[y w]|] eqn:e; [|discriminate]. intros ev. apply find_some in e. destruct e as [hi he]. cbn in *. apply Z.eqb_eq in he. congruence.
Qed.
Lemma in_snoc {A} (l : list A) x : In x (l ++ [x]).
Proof. apply in_app_iff. right. left. reflexivity. Qed.
Lemma hopeless_app qs q : hopeless qs -> hopeless (qs ++ [q]).
Proof. intros h n b hn hf. apply Forall_app in hf. exact (h n b hn (proj1 hf)). Qed.

Lemma block_lists qs : Forall block_request_ok qs -> let g := block_generator qs in bg_unsat g = true /\ hopeless qs \/ lists g qs.
Proof.
  cbv zeta. induction qs as [|q qs ih] using rev_ind; intros hq.
  { right. constructor; cbn; try reflexivity; try tauto; constructor. }
  apply Forall_app in hq. destruct hq as [hq hq1]. apply Forall_inv in hq1. specialize (ih hq).
  unfold block_generator. rewrite fold_left_app. cbn [fold_left]. fold (block_generator qs). set (g := block_generator qs) in *. clearbody g.
  destruct ih as [[hu hh]|L].
  { left. split; [|apply hopeless_app; exact hh].
    destruct q; cbn [block_call]; unfold AddRevisionBounds, RestrictVariableToOneOfTheLast256Blocks, RestrictVariableToNoneOfTheLast256Blocks, RestrictVariable, SetBlockNumberOffsetValue; rewrite hu; exact hu. }
  destruct L as [hu ht hb hr hv hd hd'].
  assert (other : forall x h, (forall lo hi, q <> Revisions lo hi) -> q = range_request (x, h) -> 
     let g' := RestrictVariable h x g in bg_unsat g' = true /\ hopeless (qs ++ [q]) \/ lists g' (qs ++ [q])).
  { intros x h hnr eq. cbv zeta. unfold RestrictVariable. rewrite hu. destruct (lookup (bg_range g) x) as [v|] eqn:el.
    - apply lookup_some in el. destruct (Bool.eqb v h) eqn:eb.
      + apply eqb_prop in eb. subst v. right. constructor; try assumption.
        * intros n hn. rewrite (hb n hn). split; intros f lo hi i; [apply in_app_iff in i; destruct i as [i|[i|[]]]; [exact (f lo hi i)|exfalso; exact (hnr lo hi i)]|apply f, in_app_iff; left; exact i].
        * intros y h'. rewrite in_app_iff, hr. cbn [In]. split; [tauto|]. intros [i|[i|[]]]; [exact i|]. rewrite eq in i. apply hr. replace (y, h') with (x, h); [exact el|]. destruct h, h'; cbn [range_request fst snd] in i; congruence.
        * intros y o. rewrite in_app_iff, hv. cbn [In]. split; [tauto|]. intros [i|[i|[]]]; [exact i|]. rewrite eq in i. destruct h; discriminate i.
      + left. split; [reflexivity|]. intros n b hn hf. rewrite Forall_forall in hf. apply hr in el. pose proof (hf _ (proj2 (in_app_iff _ _ _) (or_introl el))) as f1. pose proof (hf q (in_snoc _ _)) as f2.
        rewrite eq in f2. destruct v, h; try discriminate eb; cbn [range_request fst snd block_fulfils] in f1, f2; destruct f1 as (k & e1 & f1), f2 as (k' & e2 & f2); assert (k = k') by congruence; subst k'; tauto.
    - apply lookup_none in el. right. constructor; cbn [bg_unsat bg_solver bg_range bg_value]; try assumption; try reflexivity.
      + intros n hn. rewrite (hb n hn). split; intros f lo hi i; [apply in_app_iff in i; destruct i as [i|[i|[]]]; [exact (f lo hi i)|exfalso; exact (hnr lo hi i)]|apply f, in_app_iff; left; exact i].
      + intros y h'. rewrite !in_app_iff, hr. cbn [In]. rewrite eq. split; intros [i|[i|[]]]; try tauto; right; left; [congruence|]. destruct h, h'; cbn [range_request fst snd] in i; congruence.
      + intros y o. rewrite in_app_iff, hv. cbn [In]. split; [tauto|]. intros [i|[i|[]]]; [exact i|]. rewrite eq in i. destruct h; discriminate i.
      + rewrite map_app. cbn [map fst]. apply nodup_snoc; assumption. }
  destruct q as [lo hi|x|x|x o]; cbn [block_call].
  - clear other. destruct hq1 as [hlo hhi]. unfold AddRevisionBounds. rewrite hu.
    destruct (Z.gtb_spec lo hi) as [h1|h1]; cbn [orb].
    { left. split; [reflexivity|]. intros n b hn hf. rewrite Forall_forall in hf. pose proof (hf (Revisions lo hi) (in_snoc _ _)) as f. cbn in f. lia. }
    destruct (Z.ltb_spec lo 0); [lia|]. destruct (Z.ltb_spec hi 0); [lia|]. cbn [orb]. cbv zeta. fold (last_block hi).
    destruct (revision_bounds lo hi hlo hhi) as (u1 & u2 & hrev).
    set (s := match bg_solver g with None => NewRangeSolver (GetForkBlock lo) (last_block hi) | Some s => RangeAddUpper (last_block hi) (RangeAddLower (GetForkBlock lo) s) end).
    assert (hs : typed_bounds (Some s) /\ forall n, in_bounds (Some s) n <-> in_bounds (bg_solver g) n /\ GetForkBlock lo <= n <= last_block hi).
    { unfold s. destruct (bg_solver g) as [s0|]; cbn [typed_bounds in_bounds] in *.
      - unfold RangeAddUpper, RangeAddLower. destruct (Z.gtb_spec (GetForkBlock lo) (rs_min s0)); cbn [rs_min rs_max]; destruct (Z.ltb_spec (last_block hi) (rs_max s0)); cbn [rs_min rs_max]; (split; [tauto|intros n; lia]).
      - cbn [rs_min rs_max NewRangeSolver]. split; [tauto|intros n; tauto]. }
    clearbody s. destruct hs as [hst hsb].
    assert (hall : forall n, uint n -> (in_bounds (Some s) n <-> forall l h, In (Revisions l h) (qs ++ [Revisions lo hi]) -> l <= revision_at n <= h)).
    { intros n hn. rewrite hsb, (hb n hn), (hrev n hn). split.
      - intros [f1 f2] l h i. apply in_app_iff in i. destruct i as [i|[i|[]]]; [exact (f1 l h i)|]. injection i as <- <-. exact f2.
      - intros f. split; [intros l h i|]; apply f, in_app_iff; [left; exact i|right; left; reflexivity]. }
    unfold RangeIsSatisfiable. destruct (Z.gtb_spec (rs_min s) (rs_max s)) as [h4|h4]; cbn [negb].
    + left. split; [reflexivity|]. intros n b hn hf. rewrite Forall_forall in hf. assert (f : in_bounds (Some s) n) by (apply (hall n hn); intros l h i; exact (hf _ i)). cbn in f. lia.
    + right. constructor; cbn [bg_unsat bg_solver bg_range bg_value]; try assumption; try reflexivity.
      * intros y h'. rewrite in_app_iff, hr. cbn [In]. split; [tauto|]. intros [i|[i|[]]]; [exact i|]. destruct h'; discriminate i.
      * intros y o. rewrite in_app_iff, hv. cbn [In]. split; [tauto|]. intros [i|[i|[]]]; [exact i|]. discriminate i.
  - apply (other x true); [intros; discriminate|reflexivity].
  - apply (other x false); [intros; discriminate|reflexivity].
  - clear other. cbn in hq1. unfold SetBlockNumberOffsetValue. rewrite hu. destruct (lookup_offset (bg_value g) x) as [v|] eqn:el.
    + apply lookup_offset_some in el. destruct (Z.eqb_spec v o) as [->|hne].
      * right. constructor; try assumption.
        -- intros n hn. rewrite (hb n hn). split; intros f l h i; [apply in_app_iff in i; destruct i as [i|[i|[]]]; [exact (f l h i)|discriminate i]|apply f, in_app_iff; left; exact i].
        -- intros y h'. rewrite in_app_iff, hr. cbn [In]. split; [tauto|]. intros [i|[i|[]]]; [exact i|]. destruct h'; discriminate i.
        -- intros y o'. rewrite in_app_iff, hv. cbn [In]. split; [tauto|]. intros [i|[i|[]]]; [exact i|]. injection i as <- <-. apply hv. exact el.
      * left. split; [reflexivity|]. intros n b hn hf. rewrite Forall_forall in hf. apply hv in el. pose proof (hf _ (proj2 (in_app_iff _ _ _) (or_introl el))) as f1. pose proof (hf (Offset x o) (in_snoc _ _)) as f2.
        cbn in f1, f2. destruct f1 as [f1 _], f2 as [f2 _]. rewrite f1 in f2. injection f2 as f2. lia.
    + apply lookup_offset_none in el. right. constructor; cbn [bg_unsat bg_solver bg_range bg_value]; try assumption; try reflexivity.
      * intros n hn. rewrite (hb n hn). split; intros f l h i; [apply in_app_iff in i; destruct i as [i|[i|[]]]; [exact (f l h i)|discriminate i]|apply f, in_app_iff; left; exact i].
      * intros y h'. rewrite in_app_iff, hr. cbn [In]. split; [tauto|]. intros [i|[i|[]]]; [exact i|]. destruct h'; discriminate i.
      * intros y o'. rewrite !in_app_iff, hv. cbn [In]. split; intros [i|[i|[]]]; try tauto; right; left; congruence.
      * rewrite map_app. cbn [map fst]. apply nodup_snoc; assumption.
Qed.

(** ** the constraints collected for the block number *)
Definition adds (cs : list constraint) (s : list interval) : list interval := fold_left (interval_add tUint64) cs s.
Lemma adds_app cs cs' s : adds (cs ++ cs') s = adds cs' (adds cs s).
Proof. unfold adds. apply fold_left_app. Qed.
Lemma in_uint v : in_type tUint64 v <-> uint v.
Proof. unfold in_type, it_min, it_max, uint. cbn -[Z.pow]. lia. Qed.

Lemma addOffset_spec v o : is_word v -> - 2 ^ 63 <= o < 2 ^ 63 ->
  let '(w, f) := addOffset v o in if f then v + o < 0 \/ 2 ^ 256 <= v + o else w = v + o /\ is_word w.
Proof.
  intros hv ho. unfold is_word in *. unfold addOffset. destruct (Z.ltb_spec o 0) as [h|h].
  - unfold uint64. rewrite (Z.mod_small (- o)) by lia. destruct (Z.ltb_spec (v + o) 0) as [h'|h'].
    + replace ((v - - o) mod 2 ^ 256) with (v + o + 2 ^ 256).
      2:{ symmetry. rewrite <- (Z.mod_add (v - - o) 1) by lia. rewrite Z.mod_small by lia. lia. }
      destruct (Z.gtb_spec (v + o + 2 ^ 256) v); [left; lia|lia].
    + rewrite Z.mod_small by lia. destruct (Z.gtb_spec (v - - o) v); lia.
  - destruct (Z.leb_spec (2 ^ 256) (v + o)) as [h'|h'].
    + replace ((v + o) mod 2 ^ 256) with (v + o - 2 ^ 256).
      2:{ symmetry. rewrite <- (Z.mod_add (v + o) (-1)) by lia. rewrite Z.mod_small by lia. lia. }
      destruct (Z.ltb_spec (v + o - 2 ^ 256) v); lia.
    + rewrite Z.mod_small by lia. destruct (Z.ltb_spec (v + o) v); lia.
Qed.

Lemma value_bounds_spec a : words a -> forall order s, (forall x o, In (x, o) order -> - 2 ^ 63 < o < 2 ^ 63) ->
  match value_bounds a order s with
  | Generated s' => exists cs, s' = adds cs s /\ Forall (typed tUint64) cs /\
      forall n, uint n -> (Forall (obeys n) cs <-> forall x o v, In (x, o) order -> a x = Some v -> v = n - o)
  | ErrUnsatisfiable => forall n, uint n -> exists x o v, In (x, o) order /\ a x = Some v /\ v <> n - o
  | _ => False
  end.
Proof.
  intros ha order. induction order as [|[x o] order ih]; intros s ho.
  - cbn. exists []. split; [reflexivity|]. split; [constructor|]. intros n hn. split; [intros _ x o v []|constructor].
  - cbn [value_bounds]. assert (ho' : forall x o, In (x, o) order -> - 2 ^ 63 < o < 2 ^ 63) by (intros; apply (ho x0); right; assumption).
    pose proof (ho x o (or_introl eq_refl)) as hxo. destruct (a x) as [v|] eqn:ex.
    + pose proof (ha x v ex) as hv. pose proof (addOffset_spec v o hv ltac:(lia)) as hw. destruct (addOffset v o) as [w f]. destruct f; cbn [orb].
      { intros n hn. unfold uint in hn. exists x, o, v. split; [left; reflexivity|]. split; [exact ex|lia]. }
      destruct hw as [hw hw']. unfold is_word in hw'. unfold IsUint64. destruct (Z.ltb_spec w (2 ^ 64)) as [hs|hs]; cbn [negb].
      2:{ intros n hn. unfold uint in hn. exists x, o, v. split; [left; reflexivity|]. split; [exact ex|lia]. }
      specialize (ih (AddEqualityConstraint tUint64 w s) ho'). destruct (value_bounds a order (AddEqualityConstraint tUint64 w s)) as [s'| | | |]; try contradiction.
      * destruct ih as (cs & es & ht & hc). exists (Exactly w :: cs). split; [exact es|]. split; [constructor; [apply in_uint; unfold uint; lia|exact ht]|].
        intros n hn. rewrite Forall_cons_iff, (hc n hn). cbn [obeys]. split.
        -- intros [e f] y o' v' [i|i] ey; [injection i as <- <-; rewrite ex in ey; injection ey as <-; lia|exact (f y o' v' i ey)].
        -- intros f. split; [pose proof (f x o v (or_introl eq_refl) ex); lia|]. intros y o' v' i ey. exact (f y o' v' (or_intror i) ey).
      * intros n hn. destruct (ih n hn) as (y & o' & v' & i & e). exists y, o', v'. split; [right; exact i|exact e].
    + specialize (ih s ho'). destruct (value_bounds a order s) as [s'| | | |]; try contradiction.
      * destruct ih as (cs & es & ht & hc). exists cs. split; [exact es|]. split; [exact ht|]. intros n hn. rewrite (hc n hn). split.
        -- intros f y o' v' [i|i] ey; [injection i as <- <-; congruence|exact (f y o' v' i ey)].
        -- intros f y o' v' i ey. exact (f y o' v' (or_intror i) ey).
      * intros n hn. destruct (ih n hn) as (y & o' & v' & i & e). exists y, o', v'. split; [right; exact i|exact e].
Qed.

(** what a variable demands of the block number *)
Definition range_ok (a : Assignment) (n x : Z) (h : bool) : Prop :=
  match a x with Some v => if h then recent n v else ~ recent n v | None => h = true -> 1 <= n end.
Lemma overflow_check x y : uint x -> 0 <= y < 2 ^ 64 -> addWithOverflowCheck x y = (if x + y <? 2 ^ 64 then x + y else x + y - 2 ^ 64, negb (x + y <? 2 ^ 64)).
Proof.
  intros hx hy. unfold uint in hx. unfold addWithOverflowCheck. destruct (Z.ltb_spec (x + y) (2 ^ 64)); cbn [negb].
  - rewrite uint64_small by lia. destruct (Z.ltb_spec (x + y) x); [lia|reflexivity].
  - replace (uint64 (x + y)) with (x + y - 2 ^ 64); [destruct (Z.ltb_spec (x + y - 2 ^ 64) x); [reflexivity|lia]|].
    unfold uint64. rewrite <- (Z.mod_add (x + y) (-1)) by lia. rewrite Z.mod_small by lia. lia.
Qed.
Lemma range_one a x h s order : words a ->
  (exists cs, range_bounds a ((x, h) :: order) s = range_bounds a order (adds cs s) /\ Forall (typed tUint64) cs /\ forall n, uint n -> (Forall (obeys n) cs <-> range_ok a n x h)) \/
  (range_bounds a ((x, h) :: order) s = ErrUnsatisfiable /\ forall n, uint n -> ~ range_ok a n x h).
Proof.
  intros ha. cbn [range_bounds]. unfold range_ok. destruct (a x) as [v|] eqn:ex.
  - pose proof (ha x v ex) as hv. unfold is_word in hv. unfold IsUint64. destruct h.
    + destruct (Z.ltb_spec v (2 ^ 64)) as [hs|hs]; cbn [negb].
      2:{ right. split; [reflexivity|]. intros n hn hr. unfold uint, recent in *. lia. }
      rewrite (overflow_check v 1) by (unfold uint; lia). destruct (Z.ltb_spec (v + 1) (2 ^ 64)) as [h1|h1]; cbn [negb].
      2:{ right. split; [reflexivity|]. intros n hn hr. unfold uint, recent in *. lia. }
      rewrite (overflow_check v 256) by (unfold uint; lia). left. destruct (Z.ltb_spec (v + 256) (2 ^ 64)) as [h2|h2]; cbn [negb].
      * exists [AtLeast (v + 1); AtMost (v + 256)]. split; [reflexivity|]. split; [repeat constructor; apply in_uint; unfold uint; lia|].
        intros n hn. rewrite !Forall_cons_iff. cbn [obeys]. unfold recent. split; [lia|]. intros hr. split; [lia|]. split; [lia|constructor].
      * exists [AtLeast (v + 1)]. split; [reflexivity|]. split; [repeat constructor; apply in_uint; unfold uint; lia|].
        intros n hn. rewrite !Forall_cons_iff. cbn [obeys]. unfold recent, uint in *. split; [lia|]. intros hr. split; [lia|constructor].
    + left. destruct (Z.ltb_spec v (2 ^ 64)) as [hs|hs]; cbn [andb].
      2:{ exists []. split; [reflexivity|]. split; [constructor|]. intros n hn. unfold recent, uint in *. split; [lia|constructor]. }
      destruct (Z.ltb_spec v (2 ^ 64 - 1)) as [h1|h1].
      2:{ exists []. split; [reflexivity|]. split; [constructor|]. intros n hn. unfold recent, uint in *. split; [lia|constructor]. }
      rewrite (uint64_small (v + 1)) by lia. destruct (Z.ltb_spec v (2 ^ 64 - 1 - 256)) as [h2|h2].
      * rewrite uint64_small by lia. exists [Outside (v + 1) (v + 256)]. split; [reflexivity|]. split; [repeat constructor; apply in_uint; unfold uint; lia|].
        intros n hn. rewrite !Forall_cons_iff. cbn [obeys]. unfold recent, uint in *. split; [lia|]. intros hr. split; [lia|constructor].
      * exists [Outside (v + 1) (2 ^ 64 - 1)]. split; [reflexivity|]. split; [constructor; [split; apply in_uint; unfold uint; lia|constructor]|].
        intros n hn. rewrite !Forall_cons_iff. cbn [obeys]. unfold recent, uint in *. split; [lia|]. intros hr. split; [lia|constructor].
  - left. destruct h.
    + exists [AtLeast 1]. split; [reflexivity|]. split; [repeat constructor; apply in_uint; unfold uint; lia|]. intros n hn. rewrite !Forall_cons_iff. cbn [obeys]. split; [tauto|]. intros hr. split; [exact (hr eq_refl)|constructor].
    + exists []. split; [reflexivity|]. split; [constructor|]. intros n hn. split; [discriminate|constructor].
Qed.
Lemma range_bounds_spec a : words a -> forall order s,
  match range_bounds a order s with
  | Generated s' => exists cs, s' = adds cs s /\ Forall (typed tUint64) cs /\ forall n, uint n -> (Forall (obeys n) cs <-> forall x h, In (x, h) order -> range_ok a n x h)
  | ErrUnsatisfiable => forall n, uint n -> exists x h, In (x, h) order /\ ~ range_ok a n x h
  | _ => False
  end.
Proof.
  intros ha order. induction order as [|[x h] order ih]; intros s.
  - cbn. exists []. split; [reflexivity|]. split; [constructor|]. intros n hn. split; [intros _ x h []|constructor].
  - destruct (range_one a x h s order ha) as [(cs & -> & ht & hc)|[-> hc]].
    + specialize (ih (adds cs s)). destruct (range_bounds a order (adds cs s)) as [s'| | | |]; try contradiction.
      * destruct ih as (cs' & -> & ht' & hc'). exists (cs ++ cs'). split; [symmetry; apply adds_app|]. split; [rewrite Forall_app; split; assumption|].
        intros n hn. rewrite Forall_app, (hc n hn), (hc' n hn). split.
        -- intros [f1 f2] y h' [i|i]; [injection i as <- <-; exact f1|exact (f2 y h' i)].
        -- intros f. split; [exact (f x h (or_introl eq_refl))|]. intros y h' i. exact (f y h' (or_intror i)).
      * intros n hn. destruct (ih n hn) as (y & h' & i & f). exists y, h'. split; [right; exact i|exact f].
    + intros n hn. exists x, h. split; [left; reflexivity|exact (hc n hn)].
Qed.

(** the block numbers that satisfy the constraints on it *)
Definition block_ok (a : Assignment) (g : BlockGenerator) (vo : list (Z * Z)) (ro : list (Z * bool)) (n : Z) : Prop :=
  uint n /\ in_bounds (bg_solver g) n /\ (forall x o v, In (x, o) vo -> a x = Some v -> v = n - o) /\ (forall x h, In (x, h) ro -> range_ok a n x h).
Lemma block_number a g vo ro : words a -> typed_bounds (bg_solver g) -> (forall x o, In (x, o) vo -> - 2 ^ 63 < o < 2 ^ 63) ->
  (forall r, proper r -> match generateBlockNumber r vo ro a g with Generated n => block_ok a g vo ro n | ErrUnsatisfiable => forall n, ~ block_ok a g vo ro n | _ => False end) /\
  (forall n, block_ok a g vo ro n -> exists r, proper r /\ generateBlockNumber r vo ro a g = Generated n).
Proof.
  intros ha ht ho. unfold generateBlockNumber. cbv zeta.
  set (s0 := match bg_solver g with Some rs => AddUpperBoundary tUint64 (rs_max rs) (AddLowerBoundary tUint64 (rs_min rs) (NewIntervalSolver 0 (2 ^ 64 - 1))) | None => NewIntervalSolver 0 (2 ^ 64 - 1) end).
  assert (h0 : exists cs, s0 = adds cs (NewIntervalSolver 0 (2 ^ 64 - 1)) /\ Forall (typed tUint64) cs /\ forall n, Forall (obeys n) cs <-> in_bounds (bg_solver g) n).
  { unfold s0. destruct (bg_solver g) as [rs|]; cbn [typed_bounds in_bounds] in *.
    - exists [AtLeast (rs_min rs); AtMost (rs_max rs)]. split; [reflexivity|]. split; [repeat constructor; apply in_uint; tauto|]. intros n. rewrite !Forall_cons_iff. cbn [obeys]. split; [lia|]. intros f. split; [lia|]. split; [lia|constructor].
    - exists []. split; [reflexivity|]. split; [constructor|]. intros n. split; [tauto|constructor]. }
  clearbody s0. destruct h0 as (cs0 & -> & ht0 & hc0).
  pose proof (value_bounds_spec a ha vo (adds cs0 (NewIntervalSolver 0 (2 ^ 64 - 1))) ho) as V. destruct (value_bounds a vo (adds cs0 (NewIntervalSolver 0 (2 ^ 64 - 1)))) as [s1| | | |]; try contradiction.
  2:{ assert (no : forall n, ~ block_ok a g vo ro n) by (intros n (hn & _ & hv & _); destruct (V n hn) as (x & o & v & i & e & ne); exact (ne (hv x o v i e))).
      split; [intros r hr; exact no|intros n hn; exfalso; exact (no n hn)]. }
  destruct V as (cs1 & -> & ht1 & hc1). cbn [gbind].
  pose proof (range_bounds_spec a ha ro (adds cs1 (adds cs0 (NewIntervalSolver 0 (2 ^ 64 - 1))))) as R. destruct (range_bounds a ro (adds cs1 (adds cs0 (NewIntervalSolver 0 (2 ^ 64 - 1))))) as [s2| | | |]; try contradiction.
  2:{ assert (no : forall n, ~ block_ok a g vo ro n) by (intros n (hn & _ & _ & hr); destruct (R n hn) as (x & h & i & ne); exact (ne (hr x h i))).
      split; [intros r hr; exact no|intros n hn; exfalso; exact (no n hn)]. }
  destruct R as (cs2 & -> & ht2 & hc2). cbn [gbind]. rewrite <- !adds_app. set (cs := cs0 ++ cs1 ++ cs2).
  assert (hsol : forall n, solution 0 (2 ^ 64 - 1) cs n <-> block_ok a g vo ro n).
  { intros n. unfold solution, block_ok, cs, uint. rewrite !Forall_app, hc0. split.
    - intros (h1 & (f0 & (f1 & f2))). assert (hn : uint n) by (unfold uint; lia). rewrite (hc1 n hn) in f1. rewrite (hc2 n hn) in f2. split; [lia|]. tauto.
    - intros (h1 & f0 & f1 & f2). rewrite (hc1 n h1), (hc2 n h1). split; [lia|tauto]. }
  assert (htc : Forall (typed tUint64) cs) by (unfold cs; rewrite !Forall_app; tauto).
  destruct (interval_solver_correct tUint64 0 (2 ^ 64 - 1) cs suitable_uint64 ltac:(apply in_uint; unfold uint; lia) ltac:(apply in_uint; unfold uint; lia) htc) as [[A B] _].
  change (interval_solver tUint64 0 (2 ^ 64 - 1) cs) with (adds cs (NewIntervalSolver 0 (2 ^ 64 - 1))) in A, B. split.
  - intros r hr. specialize (A r hr). cbn beta in A. destruct (Generate tUint64 r (adds cs (NewIntervalSolver 0 (2 ^ 64 - 1)))) as [v| |]; cbn [solved]; [apply hsol; exact A|intros n hn; exact (A n (proj2 (hsol n) hn))|exact A].
  - intros n hn. destruct (B n (proj2 (hsol n) hn)) as (r & hr & e). exists r. split; [exact hr|]. cbn beta in e. rewrite e. reflexivity.
Qed.

(** ** binding variables *)
Lemma s64_opp o : - 2 ^ 63 < o < 2 ^ 63 -> s64 (- o) = - o.
Proof.
  intros h. unfold s64. destruct (Z.leb_spec o 0).
  - rewrite Z.mod_small by lia. destruct (Z.ltb_spec (- o) (2 ^ 63)); lia.
  - rewrite <- (Z.mod_add (- o) 1) by lia. rewrite Z.mod_small by lia. destruct (Z.ltb_spec (- o + 1 * 2 ^ 64) (2 ^ 63)); lia.
Qed.
Lemma bind_offsets_spec n : uint n -> forall order a, NoDup (map fst order) -> (forall x o, In (x, o) order -> - 2 ^ 63 < o < 2 ^ 63) ->
  match bind_offsets n order a with
  | Generated b => extends a b /\ (forall x, ~ In x (map fst order) -> b x = a x) /\ (forall x o, In (x, o) order -> 0 <= n - o /\ (a x = None -> b x = Some (n - o)))
  | ErrUnsatisfiable => exists x o, In (x, o) order /\ n - o < 0
  | _ => False
  end.
Proof.
  intros hn order. unfold uint in hn. induction order as [|[x o] order ih]; intros a hd ho.
  - cbn. split; [intros x v e; exact e|]. split; [reflexivity|]. intros x o [].
  - cbn [map fst] in hd. apply NoDup_cons_iff in hd. destruct hd as [hx hd].
    assert (ho' : forall x o, In (x, o) order -> - 2 ^ 63 < o < 2 ^ 63) by (intros; apply (ho x0); right; assumption).
    pose proof (ho x o (or_introl eq_refl)) as hxo. cbn [bind_offsets]. rewrite (s64_opp o hxo).
    pose proof (addOffset_spec n (- o) ltac:(unfold is_word; lia) ltac:(lia)) as hw. destruct (addOffset n (- o)) as [w f]. destruct f.
    + exists x, o. split; [left; reflexivity|lia].
    + destruct hw as [hw hw']. set (a1 := match a x with Some _ => a | None => put a x w end).
      assert (h1 : extends a a1 /\ (forall y, y <> x -> a1 y = a y) /\ (a x = None -> a1 x = Some (n - o))).
      { unfold a1. destruct (a x) as [v|] eqn:ex; [split; [intros y u e; exact e|split; [reflexivity|discriminate]]|]. split; [|split].
        - intros y u e. unfold put. destruct (Z.eqb_spec y x) as [->|]; [congruence|exact e].
        - intros y ne. unfold put. destruct (Z.eqb_spec y x); [contradiction|reflexivity].
        - intros _. unfold put. rewrite Z.eqb_refl. f_equal. lia. }
      clearbody a1. destruct h1 as (h1 & h2 & h3). specialize (ih a1 hd ho'). destruct (bind_offsets n order a1) as [b| | | |]; try contradiction.
      * destruct ih as (i1 & i2 & i3). split; [intros y v e; apply i1, h1; exact e|]. split.
        -- intros y hy. rewrite i2; [apply h2; intros ->; apply hy; left; reflexivity|intros i; apply hy; right; exact i].
        -- intros y o' [i|i].
           ++ injection i as <- <-. split; [unfold is_word in hw'; lia|]. intros e. rewrite (i2 x hx). exact (h3 e).
           ++ destruct (i3 y o' i) as [j1 j2]. split; [exact j1|]. intros e. apply j2. rewrite h2; [exact e|]. intros ->. apply hx. apply in_map_iff. exists (x, o'). split; [reflexivity|exact i].
      * destruct ih as (y & o' & i & hi). exists y, o'. split; [right; exact i|exact hi].
Qed.
Definition drawn_ok (n : Z) (h : bool) (v : Z) : Prop := if h then recent n v else uint v /\ (~ recent n v \/ 1 <= n <= 255).
Lemma one_recent n r : uint n -> 1 <= n -> proper r -> exists v, solved (RangeGenerate tUint64 r (NewRangeSolver (lower_bound n) (uint64 (n - 1)))) = Generated v /\ recent n v.
Proof.
  intros hn h1 hr. unfold uint in hn. rewrite uint64_small by lia. destruct (range_solved r (lower_bound n) (n - 1) hr) as (v & e & hv); [unfold lower_bound; destruct (Z.gtb_spec n 256); lia|lia|].
  exists v. split; [exact e|]. unfold recent, lower_bound in *. destruct (Z.gtb_spec n 256); lia.
Qed.
Lemma none_recent n r : uint n -> proper r -> exists v, solved (Generate tUint64 r (Exclude tUint64 (uint64 (n - 256)) (uint64 (n - 1)) (NewIntervalSolver 0 (2 ^ 64 - 1)))) = Generated v /\ uint v /\ (~ recent n v \/ 1 <= n <= 255).
Proof.
  intros hn hr. unfold uint in hn. pose proof (Z.mod_pos_bound (n - 256) (2 ^ 64) ltac:(lia)) as b1. pose proof (Z.mod_pos_bound (n - 1) (2 ^ 64) ltac:(lia)) as b2. fold (uint64 (n - 256)) in b1. fold (uint64 (n - 1)) in b2.
  destruct (interval_solver_correct tUint64 0 (2 ^ 64 - 1) [Outside (uint64 (n - 256)) (uint64 (n - 1))] suitable_uint64 ltac:(apply in_uint; unfold uint; lia) ltac:(apply in_uint; unfold uint; lia)) as [[A _] _].
  { repeat constructor; apply in_uint; unfold uint; lia. }
  specialize (A r hr). cbn beta in A. change (interval_solver tUint64 0 (2 ^ 64 - 1) [Outside (uint64 (n - 256)) (uint64 (n - 1))]) with (Exclude tUint64 (uint64 (n - 256)) (uint64 (n - 1)) (NewIntervalSolver 0 (2 ^ 64 - 1))) in A.
  assert (hlo : uint64 (n - 256) = if n <? 256 then n - 256 + 2 ^ 64 else n - 256).
  { destruct (Z.ltb_spec n 256); [|apply uint64_small; lia]. unfold uint64. rewrite <- (Z.mod_add (n - 256) 1) by lia. rewrite Z.mod_small by lia. lia. }
  assert (hhi : uint64 (n - 1) = if n <? 1 then 2 ^ 64 - 1 else n - 1).
  { destruct (Z.ltb_spec n 1); [|apply uint64_small; lia]. replace n with 0 by lia. reflexivity. }
  destruct (Generate tUint64 r (Exclude tUint64 (uint64 (n - 256)) (uint64 (n - 1)) (NewIntervalSolver 0 (2 ^ 64 - 1)))) as [v| |]; [|exfalso|contradiction].
  - exists v. split; [reflexivity|]. destruct A as [hv ho]. apply Forall_inv in ho. cbn [obeys] in ho. split; [unfold uint; lia|]. unfold recent. destruct (Z.ltb_spec n 256), (Z.ltb_spec n 1); lia.
  - apply (A (if n <? 256 then 2 ^ 63 else n)). unfold solution. split; [destruct (Z.ltb_spec n 256); lia|]. constructor; [|constructor]. cbn [obeys]. rewrite hlo, hhi. destruct (Z.ltb_spec n 256), (Z.ltb_spec n 1); lia.
Qed.
Lemma bind_ranges_spec rnd n : (forall i, proper (rnd i)) -> uint n -> forall order i a, NoDup (map fst order) -> (forall x, In (x, true) order -> a x = None -> 1 <= n) ->
  match bind_ranges rnd i n order a with
  | Generated b => extends a b /\ (forall x, ~ In x (map fst order) -> b x = a x) /\
      (forall x h, In (x, h) order -> match a x with Some v => h = isInRange (lower_bound n) v n | None => exists v, b x = Some v /\ drawn_ok n h v end)
  | ErrUnsatisfiable => exists x h v, In (x, h) order /\ a x = Some v /\ h <> isInRange (lower_bound n) v n
  | _ => False
  end.
Proof.
  intros hr hn order. induction order as [|[x h] order ih]; intros i a hd h1.
  - cbn. split; [intros x v e; exact e|]. split; [reflexivity|]. intros x h [].
  - cbn [map fst] in hd. apply NoDup_cons_iff in hd. destruct hd as [hx hd]. cbn [bind_ranges].
    assert (hne : forall y h', In (y, h') order -> y <> x) by (intros y h' j ->; apply hx; apply in_map_iff; exists (x, h'); split; [reflexivity|exact j]).
    destruct (a x) as [v|] eqn:ex.
    + destruct (Bool.eqb h (isInRange (lower_bound n) v n)) eqn:eb; cbn [negb].
      2:{ exists x, h, v. split; [left; reflexivity|]. split; [exact ex|]. intros e. rewrite <- e, eqb_reflx in eb. discriminate. }
      apply eqb_prop in eb. specialize (ih (S i) a hd (fun y j => h1 y (or_intror j))). destruct (bind_ranges rnd (S i) n order a) as [b| | | |]; try contradiction.
      * destruct ih as (i1 & i2 & i3). split; [exact i1|]. split; [intros y hy; apply i2; intros j; apply hy; right; exact j|].
        intros y h' [j|j]; [injection j as <- <-; rewrite ex; exact eb|exact (i3 y h' j)].
      * destruct ih as (y & h' & u & j & e). exists y, h', u. split; [right; exact j|exact e].
    + assert (hv : exists v, solved (if h then RangeGenerate tUint64 (rnd i) (NewRangeSolver (lower_bound n) (uint64 (n - 1)))
        else Generate tUint64 (rnd i) (Exclude tUint64 (uint64 (n - 256)) (uint64 (n - 1)) (NewIntervalSolver 0 (2 ^ 64 - 1)))) = Generated v /\ drawn_ok n h v).
      { destruct h; [exact (one_recent n (rnd i) hn (h1 x (or_introl eq_refl) ex) (hr i))|exact (none_recent n (rnd i) hn (hr i))]. }
      destruct hv as (v & ev & hv). rewrite ev. cbn [gbind].
      assert (hp : forall y, y <> x -> put a x v y = a y) by (intros y ne; unfold put; destruct (Z.eqb_spec y x); [contradiction|reflexivity]).
      specialize (ih (S i) (put a x v) hd). 
      assert (h1' : forall y, In (y, true) order -> put a x v y = None -> 1 <= n) by (intros y j e; apply (h1 y (or_intror j)); rewrite <- (hp y (hne y true j)); exact e).
      specialize (ih h1'). destruct (bind_ranges rnd (S i) n order (put a x v)) as [b| | | |]; try contradiction.
      * destruct ih as (i1 & i2 & i3). split; [|split].
        -- intros y u e. apply i1. rewrite hp; [exact e|]. intros ->. congruence.
        -- intros y hy. rewrite i2; [apply hp; intros ->; apply hy; left; reflexivity|intros j; apply hy; right; exact j].
        -- intros y h' [j|j].
           ++ injection j as <- <-. rewrite ex. exists v. split; [|exact hv]. rewrite (i2 x hx). unfold put. rewrite Z.eqb_refl. reflexivity.
           ++ specialize (i3 y h' j). rewrite (hp y (hne y h' j)) in i3. exact i3.
      * destruct ih as (y & h' & u & j & e & ne). rewrite (hp y (hne y h' j)) in e. exists y, h', u. split; [right; exact j|]. split; assumption.
Qed.

(** ** Generate *)
Lemma time_stamp n rt : proper rt -> uint n ->
  let time := GetForkTime (GetRevisionForBlock n) in let d := uint64 (GetForkTime (GetRevisionForBlock n + 1) - time) in
  uint (uint64 ((if d =? 0 then 0 else Uint64n rt d) + time)) /\ revision_at (uint64 ((if d =? 0 then 0 else Uint64n rt d) + time)) = revision_at n.
Proof.
  intros [hr _] hn. cbv zeta. rewrite (revision_block n hn). destruct (revision_known n hn) as [hk h6]. split.
  - unfold uint, uint64. apply Z.mod_pos_bound. lia.
  - assert (step : forall k, 0 <= k <= 5 -> forall d, d = 1000 -> GetForkTime k = 1000 * k -> revision_at (uint64 ((if d =? 0 then 0 else Uint64n rt d) + GetForkTime k)) = k).
    { intros k hk' d -> e. change (1000 =? 0) with false. cbn iota. specialize (hr 1000 ltac:(lia)). rewrite e, uint64_small by lia. unfold revision_at.
      destruct (Z.ltb_spec (Uint64n rt 1000 + 1000 * k) 6000); [|lia]. symmetry. apply (Z.div_unique _ 1000 k (Uint64n rt 1000)); lia. }
    destruct (known_cases _ hk) as [e|[e|[e|[e|[e|[e|e]]]]]]; rewrite e; try (apply step; [lia|reflexivity|reflexivity]). reflexivity.
Qed.

Section Block.
Variable rnd : nat -> random.
Hypothesis hrnd : forall i, proper (rnd i).
Variable rt : random.
Hypothesis hrt : proper rt.
Variable a : Assignment.
Hypothesis ha : words a.
Variable qs : list block_request.
Hypothesis hqs : Forall block_request_ok qs.
Variables (vo vo' : list (Z * Z)) (ro ro' : list (Z * bool)).
Hypothesis hvo : Permutation vo (bg_value (block_generator qs)).
Hypothesis hvo' : Permutation vo' (bg_value (block_generator qs)).
Hypothesis hro : Permutation ro (bg_range (block_generator qs)).
Hypothesis hro' : Permutation ro' (bg_range (block_generator qs)).
Notation g := (block_generator qs).

Lemma perm_in {A} (l l' : list A) x : Permutation l l' -> In x l <-> In x l'.
Proof. clear. intros h. split; apply Permutation_in; [exact h|symmetry; exact h]. Qed.

Lemma offsets_small l : Permutation l (bg_value g) -> lists g qs -> forall x o, In (x, o) l -> - 2 ^ 63 < o < 2 ^ 63.
Proof. intros hl L x o i. apply (perm_in _ _ _ hl) in i. apply (l_value _ _ L) in i. rewrite Forall_forall in hqs. exact (hqs _ i). Qed.
(** a possible block number satisfies the constraints on it *)
Lemma possible_ok n : lists g qs -> block_possible a qs n -> block_ok a g vo ro n.
Proof.
  intros L (hn & b & hb & hf). rewrite Forall_forall in hf. split; [exact hn|]. split; [|split].
  - apply (l_bounds _ _ L n hn). intros lo hi i. exact (hf _ i).
  - intros x o v i e. apply (perm_in _ _ _ hvo) in i. apply (l_value _ _ L) in i. specialize (hf _ i). cbn in hf. apply hb in e. destruct hf as [f _]. congruence.
  - intros x h i. apply (perm_in _ _ _ hro) in i. apply (l_range _ _ L) in i. specialize (hf _ i). unfold range_ok. destruct (a x) as [v|] eqn:ex.
    + apply hb in ex. destruct h; cbn in hf; destruct hf as (k & ek & hk); assert (k = v) by congruence; subst k; tauto.
    + intros ->. cbn in hf. destruct hf as (k & _ & hk). unfold recent in hk. lia.
Qed.

(** what a variable holds after the offsets are bound *)
Lemma after_offsets n a1 : lists g qs -> uint n -> bind_offsets n vo' a = Generated a1 ->
  extends a a1 /\ (forall x o, In (Offset x o) qs -> 0 <= n - o /\ (a x = None -> a1 x = Some (n - o))) /\
  (forall x v, a1 x = Some v -> a x = Some v \/ a x = None /\ exists o, In (Offset x o) qs /\ v = n - o /\ 0 <= n - o).
Proof.
  intros L hn e. assert (hd : NoDup (map fst vo')) by (apply (Permutation_NoDup (l := map fst (bg_value g))); [apply Permutation_map; symmetry; exact hvo'|exact (l_nodup' _ _ L)]).
  pose proof (bind_offsets_spec n hn vo' a hd (offsets_small vo' hvo' L)) as B. rewrite e in B. destruct B as (b1 & b2 & b3).
  assert (hi : forall x o, In (x, o) vo' <-> In (Offset x o) qs) by (intros x o; rewrite (perm_in _ _ _ hvo'); apply (l_value _ _ L)).
  split; [exact b1|]. split; [intros x o i; apply b3, hi, i|]. intros x v ev. destruct (a x) as [u|] eqn:ex; [left; apply b1 in ex; congruence|right]. split; [reflexivity|].
  destruct (in_dec Z.eq_dec x (map fst vo')) as [i|i]; [|rewrite (b2 x i) in ev; congruence]. apply in_map_iff in i. destruct i as ([y o] & <- & i). cbn [fst] in *. destruct (b3 y o i) as [h1 h2]. exists o. split; [apply hi; exact i|]. specialize (h2 ex). split; [congruence|exact h1].
Qed.
Lemma range_nodup : lists g qs -> NoDup (map fst ro') /\ forall x h, In (x, h) ro' <-> In (range_request (x, h)) qs.
Proof.
  intros L. split; [apply (Permutation_NoDup (l := map fst (bg_range g))); [apply Permutation_map; symmetry; exact hro'|exact (l_nodup _ _ L)]|].
  intros x h. rewrite (perm_in _ _ _ hro'). apply (l_range _ _ L).
Qed.
Lemma in_range_spec n v : uint n -> 0 <= v -> isInRange (lower_bound n) v n = true <-> recent n v \/ v = n.
Proof.
  intros hn hv. unfold uint in hn. unfold isInRange, IsUint64, lower_bound, recent. rewrite !andb_true_iff, Z.ltb_lt, !Z.leb_le. destruct (Z.gtb_spec n 256); lia.
Qed.
Lemma forall_or {A} (P : A -> Prop) (Q : Prop) l : (forall x, In x l -> P x \/ Q) -> Forall P l \/ Q.
Proof.
  clear. induction l as [|x l ih]; intros h; [left; constructor|]. destruct (h x (or_introl eq_refl)) as [hx|hq]; [|right; exact hq].
  destruct ih as [hl|hq]; [intros y i; exact (h y (or_intror i))|left; constructor; assumption|right; exact hq].
Qed.
Lemma unbound_bounds n : lists g qs -> block_ok a g vo ro n -> forall a1, extends a a1 -> forall x, In (x, true) ro' -> a1 x = None -> 1 <= n.
Proof.
  intros L (_ & _ & _ & hr) a1 h1 x i e. apply (perm_in _ _ _ hro') in i. apply (perm_in _ _ _ hro) in i. specialize (hr x true i). unfold range_ok in hr.
  destruct (a x) as [v|] eqn:ex; [apply h1 in ex; congruence|exact (hr eq_refl)].
Qed.
Lemma offset_word n o : uint n -> - 2 ^ 63 < o < 2 ^ 63 -> 0 <= n - o -> is_word (n - o).
Proof. unfold uint, is_word. lia. Qed.

Lemma block_result n a1 b : lists g qs -> block_ok a g vo ro n -> bind_offsets n vo' a = Generated a1 -> bind_ranges rnd 0 n ro' a1 = Generated b ->
  extends a b /\ (Forall (block_fulfils n b) qs \/ (exists x, In (OneOfLast256 x) qs /\ In (Offset x 0) qs) \/ (1 <= n <= 255 /\ exists x, In (NoneOfLast256 x) qs /\ a x = None)).
Proof.
  intros L hok e1 e2. pose proof hok as (hn & hbd & hvv & hrr). destruct (after_offsets n a1 L hn e1) as (o1 & o2 & o3). destruct (range_nodup L) as [hd hi].
  pose proof (bind_ranges_spec rnd n hrnd hn ro' 0 a1 hd (unbound_bounds n L hok a1 o1)) as B. rewrite e2 in B. destruct B as (b1 & _ & b3).
  split; [intros x v e; apply b1, o1; exact e|]. apply forall_or. intros q hq. destruct q as [lo hi'|x|x|x o]; cbn [block_fulfils].
  - left. exact (proj1 (l_bounds _ _ L n hn) hbd lo hi' hq).
  - specialize (b3 x true (proj2 (hi x true) hq)). destruct (a1 x) as [v|] eqn:ex; [|left; exact b3].
    destruct (o3 x v ex) as [e|(e & o & ho & -> & h0)].
    + left. exists v. split; [apply b1; exact ex|]. specialize (hrr x true). unfold range_ok in hrr. rewrite e in hrr. apply hrr. apply (perm_in _ _ _ hro). apply (l_range _ _ L). exact hq.
    + symmetry in b3. apply in_range_spec in b3; [|exact hn|exact h0]. destruct b3 as [h|h]; [left; exists (n - o); split; [apply b1; exact ex|exact h]|].
      right. left. exists x. split; [exact hq|]. replace 0 with o by lia. exact ho.
  - specialize (b3 x false (proj2 (hi x false) hq)). destruct (a1 x) as [v|] eqn:ex.
    + left. exists v. split; [apply b1; exact ex|]. assert (hv : is_word v).
      { destruct (o3 x v ex) as [e|(e & o & ho & -> & h0)]; [exact (ha x v e)|]. apply offset_word; [exact hn| |exact h0]. rewrite Forall_forall in hqs. exact (hqs _ ho). }
      split; [exact hv|]. intros h. assert (t : isInRange (lower_bound n) v n = true) by (apply in_range_spec; [exact hn|unfold is_word in hv; lia|left; exact h]). congruence.
    + destruct b3 as (v & ev & [hu [h|h]]).
      * left. exists v. split; [exact ev|]. split; [unfold uint in hu; unfold is_word; lia|exact h].
      * right. right. split; [exact h|]. exists x. split; [exact hq|]. destruct (a x) as [u|] eqn:e; [apply o1 in e; congruence|reflexivity].
  - left. destruct (o2 x o hq) as [h0 h1]. split; [|exact h0]. destruct (a x) as [v|] eqn:ex; [|apply b1, h1; reflexivity]. rewrite (b1 x v (o1 x v ex)). f_equal.
    apply (hvv x o v); [|exact ex]. apply (perm_in _ _ _ hvo). apply (l_value _ _ L). exact hq.
Qed.

(** the generator is blind to solutions with other block numbers if a positive offset is requested for an unbound variable, and
    confuses the block itself with one of the last *)
Definition block_blind : Prop :=
  (exists x, In (NoneOfLast256 x) qs /\ (a x <> None \/ In (Offset x 0) qs)) \/ (exists x o, In (Offset x o) qs /\ 0 < o /\ a x = None).

Lemma offset_error n x o : lists g qs -> block_ok a g vo ro n -> In (Offset x o) qs -> n - o < 0 -> 0 < o /\ a x = None.
Proof.
  intros L (hn & _ & hv & _) i h. unfold uint in hn. split; [lia|]. destruct (a x) as [v|] eqn:ex; [|reflexivity]. exfalso.
  assert (v = n - o) by (apply (hv x o v); [apply (perm_in _ _ _ hvo), (l_value _ _ L); exact i|exact ex]). pose proof (ha x v ex) as hw. unfold is_word in hw. lia.
Qed.
Lemma block_spec r : proper r ->
  match BlockGenerate r rnd rt vo ro vo' ro' a g with
  | Generated (n, t, b) => 0 <= n < 2 ^ 64 /\ extends a b /\ revision_at t = revision_at n /\
      (Forall (block_fulfils n b) qs \/ (exists x, In (OneOfLast256 x) qs /\ In (Offset x 0) qs) \/ (1 <= n <= 255 /\ exists x, In (NoneOfLast256 x) qs /\ a x = None))
  | ErrUnsatisfiable => (forall n, ~ block_possible a qs n) \/ block_blind
  | _ => False
  end.
Proof.
  intros hr. unfold BlockGenerate. destruct (block_lists qs hqs) as [[hu hh]|L].
  { rewrite hu. left. intros n (hn & b & _ & hf). exact (hh n b hn hf). }
  rewrite (l_sat _ _ L). destruct (block_number a g vo ro ha (l_typed _ _ L) (offsets_small vo hvo L)) as [A _]. specialize (A r hr).
  destruct (generateBlockNumber r vo ro a g) as [n| | | |]; try contradiction; cbn [gbind].
  2:{ left. intros n hp. exact (A n (possible_ok n L hp)). }
  pose proof A as (hn & _ & hvv & hrr).
  assert (hd' : NoDup (map fst vo')) by (apply (Permutation_NoDup (l := map fst (bg_value g))); [apply Permutation_map; symmetry; exact hvo'|exact (l_nodup' _ _ L)]).
  pose proof (bind_offsets_spec n hn vo' a hd' (offsets_small vo' hvo' L)) as B1. destruct (bind_offsets n vo' a) as [a1| | | |] eqn:e1; try contradiction; cbn [gbind].
  2:{ right. right. destruct B1 as (x & o & i & h). apply (perm_in _ _ _ hvo'), (l_value _ _ L) in i. exists x, o. split; [exact i|]. exact (offset_error n x o L A i h). }
  clear B1. destruct (after_offsets n a1 L hn e1) as (o1 & o2 & o3). destruct (range_nodup L) as [hd hi].
  pose proof (bind_ranges_spec rnd n hrnd hn ro' 0 a1 hd (unbound_bounds n L A a1 o1)) as B2. destruct (bind_ranges rnd 0 n ro' a1) as [b| | | |] eqn:e2; try contradiction; cbn [gbind].
  - cbv zeta. destruct (block_result n a1 b L A e1 e2) as [r1 r2]. split; [exact hn|]. split; [exact r1|]. split; [exact (proj2 (time_stamp n rt hrt hn))|exact r2].
  - destruct B2 as (x & h & v & i & ex & ne). apply hi in i. destruct h; cbn [range_request fst snd] in i.
    + left. intros n' (hn' & b' & hb' & hf). rewrite Forall_forall in hf. destruct (o3 x v ex) as [e|(e & o & ho & -> & h0)].
      * apply ne. symmetry. apply in_range_spec; [exact hn|pose proof (ha x v e) as hw; unfold is_word in hw; lia|]. left. specialize (hrr x true). unfold range_ok in hrr. rewrite e in hrr. apply hrr. apply (perm_in _ _ _ hro), (l_range _ _ L). exact i.
      * pose proof (hf _ i) as f1. pose proof (hf _ ho) as f2. cbn in f1, f2. destruct f1 as (k & ek & hk). destruct f2 as [f2 f3]. assert (k = n' - o) by congruence. subst k.
        apply ne. symmetry. apply in_range_spec; [exact hn|exact h0|]. left. unfold recent in *. lia.
    + assert (hv : 0 <= v) by (destruct (o3 x v ex) as [e|(e & o & ho & -> & h0)]; [pose proof (ha x v e) as hw; unfold is_word in hw; lia|exact h0]).
      assert (t : isInRange (lower_bound n) v n = true) by (destruct (isInRange (lower_bound n) v n); [reflexivity|contradiction]). apply in_range_spec in t; [|exact hn|exact hv].
      destruct (o3 x v ex) as [e|(e & o & ho & -> & h0)]; [right; left; exists x; split; [exact i|left; congruence]|].
      destruct t as [t|t]; [|right; left; exists x; split; [exact i|]; right; replace 0 with o by lia; exact ho].
      left. intros n' (hn' & b' & hb' & hf). rewrite Forall_forall in hf. pose proof (hf _ i) as f1. pose proof (hf _ ho) as f2. cbn in f1, f2. destruct f1 as (k & ek & hw & hk). destruct f2 as [f2 f3]. assert (k = n' - o) by congruence. subst k.
      apply hk. unfold recent in *. lia.
Qed.
Lemma block_reaches n : block_possible a qs n -> ~ (exists x, In (NoneOfLast256 x) qs /\ (a x = Some n \/ In (Offset x 0) qs)) ->
  exists r t b, proper r /\ BlockGenerate r rnd rt vo ro vo' ro' a g = Generated (n, t, b).
Proof.
  intros hp hne. destruct (block_lists qs hqs) as [[hu hh]|L]; [destruct hp as (hn & b & _ & hf); exfalso; exact (hh n b hn hf)|].
  pose proof (possible_ok n L hp) as hok. destruct (block_number a g vo ro ha (l_typed _ _ L) (offsets_small vo hvo L)) as [_ A]. destruct (A n hok) as (r & hr & er). clear A.
  exists r. unfold BlockGenerate. rewrite (l_sat _ _ L), er. cbn [gbind]. pose proof hok as (hn & _ & hvv & hrr). destruct hp as (_ & b' & hb' & hf). rewrite Forall_forall in hf.
  assert (hd' : NoDup (map fst vo')) by (apply (Permutation_NoDup (l := map fst (bg_value g))); [apply Permutation_map; symmetry; exact hvo'|exact (l_nodup' _ _ L)]).
  pose proof (bind_offsets_spec n hn vo' a hd' (offsets_small vo' hvo' L)) as B1. destruct (bind_offsets n vo' a) as [a1| | | |] eqn:e1; try contradiction; cbn [gbind].
  2:{ exfalso. destruct B1 as (x & o & i & h). apply (perm_in _ _ _ hvo'), (l_value _ _ L) in i. specialize (hf _ i). cbn in hf. lia. }
  clear B1. destruct (after_offsets n a1 L hn e1) as (o1 & o2 & o3). destruct (range_nodup L) as [hd hi].
  pose proof (bind_ranges_spec rnd n hrnd hn ro' 0 a1 hd (unbound_bounds n L hok a1 o1)) as B2. destruct (bind_ranges rnd 0 n ro' a1) as [b| | | |] eqn:e2; try contradiction; cbn [gbind].
  - cbv zeta. eexists. exists b. split; [exact hr|reflexivity].
  - exfalso. destruct B2 as (x & h & v & i & ex & ne). apply hi in i. pose proof (hf _ i) as f. assert (ev : b' x = Some v).
    { destruct (o3 x v ex) as [e|(e & o & ho & -> & h0)]; [exact (hb' x v e)|exact (proj1 (hf _ ho))]. }
    assert (hv : 0 <= v) by (destruct (o3 x v ex) as [e|(e & o & ho & -> & h0)]; [pose proof (ha x v e) as hw; unfold is_word in hw; lia|exact h0]).
    destruct h; cbn in f; destruct f as (k & ek & hk); assert (k = v) by congruence; subst k; apply ne; symmetry.
    + apply in_range_spec; [exact hn|exact hv|left; exact hk].
    + destruct (isInRange (lower_bound n) v n) eqn:t; [|reflexivity]. exfalso. apply in_range_spec in t; [|exact hn|exact hv]. destruct t as [t|t]; [tauto|]. apply hne. exists x. split; [exact i|].
      destruct (o3 x v ex) as [e|(e & o & ho & ho' & h0)]; [left; congruence|right; replace 0 with o by lia; exact ho].
Qed.
End Block.
