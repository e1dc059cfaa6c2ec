(** The conformance test driver: comparisons of states, and that both targets pass all tests. *)
From Verif Require Import Base Host SpecEvm SpecVm MemFacts JumpFacts RunInv Vm Client ClientFacts GoAdapter GoStorage LfvmCode Lfvm SpecLfvm Ct SpecCt CtFacts CtEnv CtRules SpecRules CtRuleFacts CtMemFacts CtRulesTop CtCover CtPick CtDriver SpecDriver.
From Coq Require Import Lia ZArith List Bool.
Import ListNotations.
Open Scope Z_scope.

(** ** Comparisons *)
Lemma slices_iff {A} (eqv : A -> A -> bool) : (forall x y, eqv x y = true <-> x = y) -> forall a b, slices_Equal eqv a b = true <-> a = b.
Proof.
  intros h. induction a as [|x a ih]; destruct b as [|y b]; cbn [slices_Equal]; try (split; congruence). rewrite andb_true_iff, h, ih. split; [intros [-> ->]; reflexivity|intros e; injection e as -> ->; auto].
Qed.
Lemma entry_find {A} (m : list (Z * A)) k z : entry m k z = match entry_of m k with Some v => v | None => z end.
Proof. induction m as [|[k' v] m ih]; cbn [entry entry_of]; [reflexivity|]. destruct (k' =? k); [reflexivity|exact ih]. Qed.
Lemma find_none {A} (m : list (Z * A)) k : ~ In k (map fst m) -> entry_of m k = None.
Proof.
  induction m as [|[k' v] m ih]; cbn [entry_of map fst In]; intros h; [reflexivity|]. destruct (Z.eqb_spec k' k); [tauto|]. apply ih. tauto.
Qed.
Lemma find_in {A} (m : list (Z * A)) k v : entry_of m k = Some v -> In k (map fst m).
Proof. intros h. destruct (in_dec Z.eq_dec k (map fst m)) as [hi|hi]; [exact hi|]. rewrite find_none in h by exact hi. discriminate. Qed.
Lemma maps_iff {A B} (eqv : A -> A -> bool) (f : A -> B) : (forall x y, eqv x y = true <-> f x = f y) -> forall a b, maps_Equal eqv a b = true <-> forall k, option_map f (entry_of a k) = option_map f (entry_of b k).
Proof.
  intros h a b. unfold maps_Equal. rewrite forallb_forall. split.
  - intros H1 k. destruct (in_dec Z.eq_dec k (map fst a ++ map fst b)) as [hi|hi].
    + specialize (H1 k hi). destruct (entry_of a k) as [x|], (entry_of b k) as [y|]; try discriminate; [|reflexivity]. cbn. f_equal. apply h, H1.
    + rewrite !find_none; [reflexivity| |]; intros hx; apply hi, in_or_app; tauto.
  - intros H1 k _. specialize (H1 k). destruct (entry_of a k) as [x|], (entry_of b k) as [y|]; try discriminate; [|reflexivity]. cbn in H1. injection H1 as H1. apply h, H1.
Qed.
Lemma contains_iff l k : contains l k = true <-> In k l.
Proof. unfold contains. rewrite existsb_exists. split; [intros (x & h1 & h2); rewrite Z.eqb_eq in h2; subst; exact h1|intros h; exists k; rewrite Z.eqb_refl; auto]. Qed.
Lemma sets_iff a b : sets_Equal a b = true <-> forall k, In k a <-> In k b.
Proof.
  unfold sets_Equal. rewrite andb_true_iff, !forallb_forall. split.
  - intros [h1 h2] k. rewrite <- !contains_iff in *. split; intros h; [apply h1|apply h2]; apply contains_iff, h.
  - intros h. split; intros k hk; apply contains_iff, h, hk.
Qed.
Lemma zeros_iff a b : mapEqualIgnoringZeroValues a b = true <-> forall k, word (entry a k 0) = word (entry b k 0).
Proof.
  assert (w0 : word 0 = 0) by reflexivity. unfold mapEqualIgnoringZeroValues. rewrite andb_true_iff, !forallb_forall. split.
  - intros [h1 h2] k. rewrite !entry_find. destruct (entry_of a k) as [x|] eqn:ea.
    + specialize (h1 k (find_in _ _ _ ea)). rewrite ea in h1. destruct (entry_of b k); lia.
    + destruct (entry_of b k) as [y|] eqn:eb; [|reflexivity]. specialize (h2 k (find_in _ _ _ eb)). rewrite ea, eb in h2. lia.
  - intros h. split; intros k _; specialize (h k); rewrite !entry_find in h; destruct (entry_of a k), (entry_of b k); try reflexivity; lia.
Qed.
Lemma kind_iff a b : kind_eqb a b = true <-> a = b.
Proof. destruct a, b; cbn; split; congruence. Qed.
Lemma bool_iff a b : eqb a b = true <-> a = b. Proof. apply eqb_true_iff. Qed.
Lemma past_iff a b : past_eqb a b = true <-> a = b.
Proof.
  unfold past_eqb. rewrite !andb_true_iff, !Z.eqb_eq, list_eqb_iff, kind_iff. destruct a, b. cbn. split; [intros ((((((-> & ->) & ->) & ->) & ->) & ->) & ->); reflexivity|intros e; injection e as -> -> -> -> -> -> ->; tauto].
Qed.
Lemma future_iff a b : future_eqb a b = true <-> a = b.
Proof.
  unfold future_eqb. rewrite !andb_true_iff, !Z.eqb_eq, list_eqb_iff, bool_iff. destruct a, b. cbn. split; [intros ((((-> & ->) & ->) & ->) & ->); reflexivity|intros e; injection e as -> -> -> -> ->; tauto].
Qed.
Lemma world_eq a b : WorldEq a b = true <-> same_world a b.
Proof.
  unfold WorldEq. rewrite !andb_true_iff, !zeros_iff, !sets_iff, (slices_iff _ past_iff), (slices_iff _ future_iff), bool_iff.
  rewrite (maps_iff (fun x y => word x =? word y) word) by (intros; apply Z.eqb_eq).
  rewrite (maps_iff _ (fun x : Z * list Z => (word (fst x), byte_slice (snd x)))) by (intros x y; rewrite andb_true_iff, Z.eqb_eq, list_eqb_iff; split; [intros [-> ->]; reflexivity|intros e; injection e as -> ->; auto]).
  rewrite (slices_iff (fun x y : list Z * list Z => _)) by (intros [x1 x2] [y1 y2]; cbn [fst snd]; rewrite andb_true_iff, !list_eqb_iff; split; [intros [-> ->]; reflexivity|intros e; injection e as -> ->; auto]).
  rewrite (slices_iff (fun x y : Z * Z => _)) by (intros [x1 x2] [y1 y2]; cbn [fst snd]; rewrite andb_true_iff, !Z.eqb_eq; split; [intros [-> ->]; reflexivity|intros e; injection e as -> ->; auto]).
  assert (hh : forallb (fun i => hash_at a i =? hash_at b i) (upto 0 256) = true <-> forall i, 0 <= i < 256 -> hash_at a i = hash_at b i).
  { rewrite forallb_forall. split.
    - intros h i hi. apply Z.eqb_eq, h. unfold upto. apply in_map_iff. exists (Z.to_nat i). split; [lia|]. apply in_seq. lia.
    - intros h i hi. apply Z.eqb_eq, h. unfold upto in hi. apply in_map_iff in hi. destruct hi as (n & <- & hn). apply in_seq in hn. lia. }
  rewrite hh. unfold GetCurrent, TGet. split.
  - intros h. split; unfold GetCurrent, TGet; apply h.
  - intros [h1 h2 h3 h4 h5 h6 h7 h8 h9 h10 h11 h12]. tauto.
Qed.
Lemma driver_eq a b : zlen (ct_code a) < 2 ^ 16 -> StateEq WorldEq a b = true <-> alike_states a b.
Proof.
  intros hz. pose proof (zlen_nonneg (ct_code a)) as h0. unfold StateEq, alike_states. assert (hu : u16 (zlen (ct_code a)) = zlen (ct_code a)) by (unfold u16; apply Z.mod_small; lia). rewrite hu.
  destruct (ct_stat a), (ct_stat b); cbn [status_eqb negb andb]; try (split; [discriminate|intros [h _]; discriminate h]);
  try (rewrite !andb_true_iff, !list_eqb_iff, !Z.eqb_eq, eqb_true_iff, world_eq; split; [intros h; split; [reflexivity|intros _]; tauto|intros [_ h]; specialize (h ltac:(discriminate)); tauto]).
  - rewrite !andb_true_iff, orb_true_iff, andb_true_iff, !list_eqb_iff, !Z.eqb_eq, !Z.leb_le, eqb_true_iff, world_eq. split; [intros h; split; [reflexivity|intros _]; tauto|intros [_ h]; specialize (h ltac:(discriminate)); tauto].
  - split; [intros _; split; [reflexivity|intros h; contradiction]|reflexivity].
Qed.
Lemma world_refl w : same_world w w.
Proof. split; intros; reflexivity || tauto. Qed.
Lemma same_alike a b : same_state a b -> alike_states a b.
Proof.
  intros [h1 h2]. split; [exact h1|]. intros h. destruct (h2 h) as (k1 & k2 & k3 & k4 & k5 & k6 & k7 & k8 & k9 & k10 & k11). rewrite k10. pose proof (world_refl (ct_world b)). tauto.
Qed.
Lemma same_refl {W} (s : ct_state W) : same_state s s.
Proof. split; [reflexivity|]. intros _. repeat (split; [reflexivity|]). destruct (ct_stat s); auto. Qed.

Lemma same_equal a b : (ct_stat a <> CtFailed -> zlen (ct_code a) < 2 ^ 16) -> same_state a b -> StateEq WorldEq a b = true.
Proof.
  intros hz h. assert (hd : ct_stat a = CtFailed \/ ct_stat a <> CtFailed) by (destruct (ct_stat a); intuition congruence). destruct hd as [hd|hd]; [|apply driver_eq; [apply hz, hd|apply same_alike, h]].
  destruct h as [h _]. unfold StateEq. rewrite <- h, hd. reflexivity.
Qed.
Lemma driver_eq_r a b : (ct_stat b <> CtFailed -> zlen (ct_code b) < 2 ^ 16) -> StateEq WorldEq a b = true <-> alike_states a b.
Proof.
  intros hz. destruct (list_eq_dec Z.eq_dec (ct_code a) (ct_code b)) as [e|ne].
  - assert (hd : ct_stat b = CtFailed \/ ct_stat b <> CtFailed) by (destruct (ct_stat b); intuition congruence). destruct hd as [hd|hd]; [|apply driver_eq; rewrite e; apply hz, hd].
    unfold StateEq, alike_states. rewrite hd. destruct (ct_stat a); cbn [status_eqb negb andb]; (split; [intros h; first [discriminate h|split; [reflexivity|intros k; contradiction]]|intros [h _]; first [discriminate h|reflexivity]]).
  - assert (hl : list_eqb (ct_code a) (ct_code b) = false) by (unfold list_eqb; destruct (list_eq_dec Z.eq_dec (ct_code a) (ct_code b)); congruence).
    unfold StateEq, alike_states. rewrite hl. destruct (ct_stat a), (ct_stat b); cbn [status_eqb negb andb]; (split; [intros h; first [discriminate h|split; [reflexivity|intros k; contradiction]]|intros [h k]; first [discriminate h|reflexivity|elim ne; apply k; discriminate]]).
Qed.
Lemma alike_same a b c : alike_states a b -> same_state b c -> alike_states a c.
Proof.
  intros [h1 h2] [g1 g2]. split; [congruence|]. intros h. destruct (h2 h) as (k1 & k2 & k3 & k4 & k5 & k6 & k7 & k8 & k9 & k10 & k11). rewrite <- h1 in g2.
  destruct (g2 h) as (l1 & l2 & l3 & l4 & l5 & l6 & l7 & l8 & l9 & l10 & l11). rewrite <- l10. repeat (split; [congruence|]).
  destruct (ct_stat a); try congruence. destruct k11 as (m1 & m2 & m3 & m4), l11 as (n1 & n2 & n3 & n4). split; [|repeat split; congruence].
  rewrite <- k1 in n1. destruct m1 as [m1|m1], n1 as [n1|n1]; [left; congruence|right; rewrite m1; exact n1|right; rewrite <- n1; exact m1|right; tauto].
Qed.
Lemma after_code {W} (s : ct_state W) o : ct_code (ct_after s o) = ct_code s.
Proof. destruct o as [f|[] out f|e f]; reflexivity. Qed.

(** ** Tests *)
Section Tests.
Variable tx : tx_context.
Variable keccak hash : list Z -> Z.
Hypothesis Htx : tx_ok tx.
Hypothesis Hk : forall d, is_word (keccak d).
Variable FilterRules : list rule -> list rule.
Hypothesis Hf : forall rs, incl (FilterRules rs) rs.
Notation evm call s rv := (run_for (go_host (ct_rc tx) tx) call keccak (message_of (ToVmParameters hash s)) rv (ct_code s) (is_dest (ct_code s)) 1 (frame_of s)).
Notation run StepN s := (opRun tx keccak FilterRules StepN s).

Lemma asked_only call s rv : from_journal call -> answered tx hash s rv -> evm call s rv = evm (answers ct_Call) s rv.
Proof.
  intros hj ha. cbn [run_for]. rewrite (step_ext (go_host (ct_rc tx) tx) keccak (message_of (ToVmParameters hash s)) rv (ct_code s) (is_dest (ct_code s)) call (answers ct_Call)); [reflexivity|].
  intros w m h. apply hj, ha, h.
Qed.
Lemma exact StepN s rv : test_state s -> In (ct_revision s, rv) revisions -> ~ covered (ct_code s) (ct_pc s) -> ~ gap s (code_at (ct_code s) (ct_pc s)) ->
  (forall rs, rs <> [] -> FilterRules rs <> []) ->
  run StepN s = Passed <-> exists s', StepN s 1 = Ok (s', None) /\ alike_states s' (ct_after s (evm (answers ct_Call) s rv)).
Proof.
  intros ht hr hc hg hn. unfold opRun. rewrite (proj2 (code_iff (ct_code s) (ct_pc s) ltac:(pose proof (tst_pc s ht); lia)) hc). cbn [negb]. unfold runTest.
  destruct (rules_cover tx keccak s ht (known_rev s rv hr) hc) as (rs & e1 & hg'). destruct (rules_sound tx keccak hash Htx s rv ht hr hc) as (rs' & e2 & hok). rewrite e1 in e2. injection e2 as <-. rewrite e1. cbn [rbind].
  destruct rs as [|r0 rs]; [elim hg; apply hg'; reflexivity|]. destruct (FilterRules (r0 :: rs)) as [|r rs'] eqn:ef; [elim (hn (r0 :: rs)); [discriminate|exact ef]|].
  destruct (hok r) as (x & ex & hx); [apply Hf; rewrite ef; left; reflexivity|]. rewrite ex. cbn [rbind].
  assert (hz : ct_stat x <> CtFailed -> zlen (ct_code x) < 2 ^ 16). { intros h. rewrite (proj1 (proj2 hx h)), after_code. pose proof (ctk_size s (tst_ok s ht)). lia. }
  destruct (StepN s 1) as [[s' [e|]]| |]; cbn [rbind]; try (split; [discriminate|intros (y & h & _); discriminate]).
  - split; [|intros (y & h & _); discriminate]. destruct e; discriminate.
  - split.
    + destruct (StateEq WorldEq s' x) eqn:eq; [|discriminate]. intros _. exists s'. split; [reflexivity|]. apply (alike_same s' x); [apply driver_eq_r; assumption|exact hx].
    + intros (y & h & ha). injection h as <-. rewrite (proj2 (driver_eq_r s' x hz)); [reflexivity|]. apply (alike_same s' _ x ha). apply same_sym, hx.
Qed.
Lemma passes StepN s rv : test_state s -> In (ct_revision s, rv) revisions ->
  (~ covered (ct_code s) (ct_pc s) -> ~ gap s (code_at (ct_code s) (ct_pc s)) -> exists s', StepN s 1 = Ok (s', None) /\ same_state s' (ct_after s (evm (answers ct_Call) s rv))) -> run StepN s = Passed.
Proof.
  intros ht hr hs. unfold opRun. destruct (IsCodeAt (ct_code s) (ct_pc s)) eqn:ec; [|reflexivity]. cbn [negb]. apply code_iff in ec; [|pose proof (tst_pc s ht); lia]. unfold runTest.
  destruct (rules_cover tx keccak s ht (known_rev s rv hr) ec) as (rs & e1 & hg). destruct (rules_sound tx keccak hash Htx s rv ht hr ec) as (rs' & e2 & hok). rewrite e1 in e2. injection e2 as <-. rewrite e1. cbn [rbind].
  destruct rs as [|r0 rs]; [reflexivity|]. assert (ng : ~ gap s (code_at (ct_code s) (ct_pc s))) by (intros h; apply hg in h; discriminate).
  destruct (FilterRules (r0 :: rs)) as [|r rs'] eqn:ef; [reflexivity|]. destruct (hok r) as (x & ex & hx); [apply Hf; rewrite ef; left; reflexivity|]. rewrite ex. cbn [rbind].
  destruct (hs ec ng) as (s' & es & hs1). rewrite es. cbn [rbind]. replace (StateEq WorldEq s' x) with true; [reflexivity|symmetry].
  apply same_equal; [|apply same_trans with (1 := hs1); apply same_sym; exact hx]. destruct hs1 as [_ hs1]. intros hn. rewrite (proj1 (hs1 hn)), after_code. pose proof (ctk_size s (tst_ok s ht)). lia.
Qed.
Lemma code_start code q : 0 <= q < zlen code -> ~ covered code q -> instr_start code q.
Proof.
  intros h hc. pose proof (isCode_at code q ltac:(lia)) as X. destruct (znth (isCode_of code) q) as [[|]|]; [apply X|contradiction|lia].
Qed.
Theorem lfvm_passes Call s rv : calls_ok (answers Call) 0 -> from_journal (answers Call) -> test_state s -> In (ct_revision s, rv) revisions -> answered tx hash s rv -> ct_pc s <= zlen (ct_code s) ->
  run (LfvmStepN (ct_rc tx) tx Call keccak hash) s = Passed.
Proof.
  intros hc hj ht hr ha hp. apply (passes _ s rv ht hr). intros hcov hg. pose proof (tst_pc s ht) as h0.
  assert (hat : at_instruction s). { destruct (Z.eq_dec (ct_pc s) (zlen (ct_code s))); [left; assumption|right]. split; [apply code_start; [lia|exact hcov]|lia]. }
  destruct (pick tx Call keccak hash Htx Hk hc s rv (tst_ok s ht) hat hr hg) as (rc' & he & [e1 e2]).
  destruct (lfvm_from rc' tx Call keccak hash s rv 1 (frame_of s) he (tst_ok s ht) hat hr (frame_of_describes s hat)) as (a & k & h1 & h2 & h3 & h4 & _).
  change (Z.to_nat 1) with 1%nat in *. assert (k = 1%nat) by lia. subst k. exists a. rewrite <- e1. split; [exact h1|]. cbv zeta in e2. rewrite e2 in h4. rewrite asked_only in h4 by assumption. exact h4.
Qed.
Theorem evmzero_passes g v s rv : setting_ok g -> reach g v -> g_host g = go_host (ct_rc tx) tx -> g_keccak g = keccak -> g_code_of g (hash (ct_code s)) = ct_code s -> from_journal (nested g) ->
  test_state s -> In (ct_revision s, rv) revisions -> answered tx hash s rv -> ct_pc s <= zlen (ct_code s) + 32 ->
  run (fun s n => do! '(s', e, _) <- EvmzeroStepN g hash v s n; Ok (s', e)) s = Passed.
Proof.
  intros hg hv eh ek hh hj ht hr ha hp. apply (passes _ s rv ht hr). intros hcov hgap. pose proof (tst_pc s ht) as h0.
  destruct (evmzero_steps g hash v s rv 1 hg hv (tst_ok s ht) ltac:(lia) hr hh) as (b & v' & e & _ & g4 & _). exists b. rewrite e. cbn [rbind]. split; [reflexivity|].
  rewrite eh, ek in g4. change (Z.to_nat 1) with 1%nat in g4. rewrite asked_only in g4 by assumption. exact g4.
Qed.
(** states that are not running, and states of an unknown revision *)
Lemma idle_passes StepN s : 0 <= ct_pc s /\ Forall (fun v => 0 <= v) (ct_stack s) -> ct_pc s < 65536 -> 0 <= ct_revision s <= 5 -> ct_stat s <> CtRunning -> zlen (ct_code s) < 2 ^ 16 -> StepN s 1 = Ok (s, None) -> run StepN s = Passed.
Proof.
  intros hs hp hr hn hz e. unfold opRun. destruct (IsCodeAt (ct_code s) (ct_pc s)); [|reflexivity]. cbn [negb]. unfold runTest.
  destruct (rules_idle tx keccak s hs hp hr (or_introl hn)) as (rs & e1 & hne & hok). rewrite e1. cbn [rbind]. destruct rs as [|r0 rs]; [reflexivity|].
  destruct (FilterRules (r0 :: rs)) as [|r rs'] eqn:ef; [reflexivity|]. rewrite (hok r) by (apply Hf; rewrite ef; left; reflexivity). cbn [rbind]. rewrite e. cbn [rbind].
  rewrite same_equal; [reflexivity|auto|apply same_refl].
Qed.
Lemma unknown_passes StepN s : 0 <= ct_pc s /\ Forall (fun v => 0 <= v) (ct_stack s) -> ct_pc s < 65536 -> ct_revision s = 99 -> StepN s 1 = Ok (s, Some ErrUnsupportedRevision) -> run StepN s = Passed \/ run StepN s = Unsupported.
Proof.
  intros hs hp hr e. unfold opRun. destruct (IsCodeAt (ct_code s) (ct_pc s)) eqn:ec; [|left; reflexivity]. cbn [negb]. apply code_iff in ec; [|lia]. unfold runTest.
  destruct (rules_unknown tx keccak s hs hp hr ec) as (rs & e1 & hne & hok). rewrite e1. cbn [rbind]. destruct rs as [|r0 rs]; [left; reflexivity|].
  destruct (FilterRules (r0 :: rs)) as [|r rs'] eqn:ef; [left; reflexivity|]. destruct (hok r) as (x & ex & _); [apply Hf; rewrite ef; left; reflexivity|]. rewrite ex. cbn [rbind]. rewrite e. right. reflexivity.
Qed.
Theorem others_pass s Call g v : 0 <= ct_pc s < 65536 -> Forall (fun v => 0 <= v) (ct_stack s) -> zlen (ct_code s) < 2 ^ 16 ->
  0 <= ct_revision s <= 5 /\ ct_stat s <> CtRunning \/ ct_revision s = 99 ->
  run (LfvmStepN (ct_rc tx) tx Call keccak hash) s <> Issue /\ run (fun s n => do! '(s', e, _) <- EvmzeroStepN g hash v s n; Ok (s', e)) s <> Issue.
Proof.
  intros hp hs hz h. destruct h as [[hr hn]|hr].
  - rewrite !idle_passes; try assumption; try tauto; try lia; [split; discriminate| |].
    + unfold EvmzeroStepN. cbn [ToVmParameters p_revision]. destruct (Z.ltb_spec 5 (ct_revision s)); [lia|]. destruct (ct_stat s); [contradiction|reflexivity..].
    + apply lfvm_idle; [lia|exact hn].
  - assert (e1 : LfvmStepN (ct_rc tx) tx Call keccak hash s 1 = Ok (s, Some ErrUnsupportedRevision)) by (apply lfvm_idle; lia).
    assert (e2 : (do! '(s', e, _) <- EvmzeroStepN g hash v s 1; Ok (s', e)) = Ok (s, Some ErrUnsupportedRevision)) by (unfold EvmzeroStepN; cbn [ToVmParameters p_revision]; destruct (Z.ltb_spec 5 (ct_revision s)); [reflexivity|lia]).
    split; intros hx.
    + destruct (unknown_passes (LfvmStepN (ct_rc tx) tx Call keccak hash) s ltac:(tauto) ltac:(lia) hr e1) as [k|k]; rewrite k in hx; discriminate.
    + match type of hx with opRun _ _ _ ?F _ = _ => destruct (unknown_passes F s ltac:(tauto) ltac:(lia) hr e2) as [k|k]; rewrite k in hx; discriminate end.
Qed.
End Tests.
