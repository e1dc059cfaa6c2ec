From Verif Require Import Base CtEnum SpecEnum.
From Coq Require Import Lia ZArith List Bool FinFun.
Import ListNotations.
Open Scope Z_scope.

Lemma calls_app {X W} (k : X -> W -> bool * W) l1 l2 w : calls k (l1 ++ l2) w = let '(r, w) := calls k l1 w in if r then calls k l2 w else (false, w).
Proof. revert w. induction l1 as [|x l1 IH]; intros w; [reflexivity|]. cbn [app calls]. destruct (k x w) as [r w1]. destruct r; [apply IH|reflexivity]. Qed.
Lemma calls_map {X Y W} (f : Y -> X) (k : X -> W -> bool * W) l w : calls k (map f l) w = calls (fun y => k (f y)) l w.
Proof. revert w. induction l as [|x l IH]; intros w; [reflexivity|]. cbn [map calls]. destruct (k (f x) w) as [r w1]. destruct r; [apply IH|reflexivity]. Qed.
Lemma calls_ext {X W} (k k' : X -> W -> bool * W) l w : (forall x w, k x w = k' x w) -> calls k l w = calls k' l w.
Proof. intros h. revert w. induction l as [|x l IH]; intros w; [reflexivity|]. cbn [calls]. rewrite h. destruct (k' x w) as [r w1]. destruct r; [apply IH|reflexivity]. Qed.
Lemma one_call {W} (k : W -> bool * W) w : (let '(r, w) := k w in if r then (true, w) else (false, w)) = k w.
Proof. destruct (k w) as [[|] w1]; reflexivity. Qed.

Lemma states_calls {T G W} (restrict : T -> G -> G) (k : G -> W -> bool * W) values : forall g w,
  enumerateTestStates restrict k values g w = calls (fun c => k (fold_left (fun g t => restrict t g) c g)) (product values) w.
Proof.
  induction values as [|head rest IH]; intros g w; cbn [enumerateTestStates product].
  - cbn [calls fold_left]. symmetry. exact (one_call (k g) w).
  - revert w. induction head as [|cur l IHl]; intros w; [reflexivity|]. cbn [flat_map]. rewrite calls_app, calls_map. cbn [fold_left]. rewrite <- IH.
    destruct (enumerateTestStates restrict k rest (restrict cur g) w) as [[|] w1]; [apply IHl|reflexivity].
Qed.

Lemma nth_middle {A} (pre : list A) x st : nth_error (pre ++ x :: st) (length pre) = Some x.
Proof. rewrite nth_error_app2 by lia. rewrite Nat.sub_diag. reflexivity. Qed.
Lemma upd_middle {A} (pre : list A) x st y : list_upd (pre ++ x :: st) (length pre) y = pre ++ y :: st.
Proof. induction pre as [|a pre IH]; [reflexivity|]. cbn [app length list_upd]. rewrite IH. reflexivity. Qed.
Lemma parameters_calls {O W} (consume : list Z * O -> W -> bool * W) o params : forall pre stack w,
  exists r s w', enumerateParameters consume (length pre) params (pre ++ stack, o) w = (r, s, w') /\ calls (fun s => consume (pre ++ s, o)) (variants params stack) w = (r, w') /\ (r = true -> s = (pre ++ stack, o)).
Proof.
  induction params as [|samples rest IH]; intros pre stack w.
  - cbn [enumerateParameters variants calls]. destruct (consume (pre ++ stack, o) w) as [[|] w1]; eexists _, _, _; (split; [reflexivity|split; [reflexivity|intros _; reflexivity]]).
  - destruct stack as [|v st].
    + cbn [enumerateParameters variants calls fst]. rewrite (proj2 (nth_error_None _ _)) by (rewrite app_length; cbn; lia).
      destruct (consume (pre ++ [], o) w) as [[|] w1]; eexists _, _, _; (split; [reflexivity|split; [reflexivity|intros _; reflexivity]]).
    + assert (step : forall x w, exists r s w', enumerateParameters consume (S (length pre)) rest (pre ++ x :: st, o) w = (r, s, w') /\
        calls (fun s => consume (pre ++ s, o)) (map (cons x) (variants rest st)) w = (r, w') /\ (r = true -> s = (pre ++ x :: st, o))).
      { intros x w0. destruct (IH (pre ++ [x]) st w0) as (r & s & w1 & h1 & h2 & h3). rewrite app_length in h1. cbn [length] in h1. rewrite Nat.add_1_r in h1. rewrite <- app_assoc in h1, h3. cbn [app] in h1, h3.
        exists r, s, w1. split; [exact h1|]. split; [|exact h3]. rewrite calls_map. rewrite <- h2. apply calls_ext. intros y w2. rewrite <- app_assoc. reflexivity. }
      cbn [enumerateParameters variants fst flat_map]. rewrite nth_middle.
      destruct (step v w) as (r & s & w1 & h1 & h2 & h3). rewrite h1. rewrite calls_app, h2. destruct r.
      2: { eexists _, _, _. split; [reflexivity|]. split; [reflexivity|discriminate]. }
      rewrite (h3 eq_refl). clear h1 h2 h3 s. rename w1 into w2. clear w. generalize v at 2 as x. revert w2.
      induction samples as [|value l IHl]; intros w x.
      * cbn [flat_map calls fst snd]. rewrite upd_middle. eexists _, _, _. split; [reflexivity|]. split; [reflexivity|intros _; reflexivity].
      * cbn [flat_map fst snd]. rewrite upd_middle. destruct (step value w) as (r & s & w1 & h1 & h2 & h3). rewrite h1. rewrite calls_app, h2. destruct r.
        -- rewrite (h3 eq_refl). apply IHl.
        -- eexists _, _, _. split; [reflexivity|]. split; [reflexivity|discriminate].
Qed.
Lemma enumerate_calls {T G O W} (restrict : T -> G -> G) (generate : G -> W -> @generated O * W) consume values params new w :
  EnumerateTestCases consume restrict generate values params new w = snd (calls (one_combination restrict generate params new consume) (product values) (false, w)).
Proof.
  unfold EnumerateTestCases. cbv zeta. rewrite states_calls. f_equal. apply calls_ext. intros c [e w0]. unfold one_combination. cbn [fst snd].
  destruct (generate _ w0) as [[[stack o]| |] w1]; try reflexivity.
  destruct (parameters_calls consume o params [] stack w1) as (r & s & w2 & h1 & h2 & _). cbn [length app] in h1, h2. rewrite h1, h2. reflexivity.
Qed.

(** *** combinations *)
Lemma product_in {T} (values : list (list T)) c : In c (product values) <-> Forall2 (fun t l => In t l) c values.
Proof.
  revert c. induction values as [|l rest IH]; intros c; cbn [product].
  - split; [intros [<-|[]]; constructor|intros h; inversion h; left; reflexivity].
  - rewrite in_flat_map. split.
    + intros (x & hx & h). apply in_map_iff in h. destruct h as (c' & <- & h). constructor; [exact hx|apply IH, h].
    + intros h. inversion h as [|x l' c' r' hx h']; subst. exists x. split; [exact hx|]. apply in_map_iff. exists c'. split; [reflexivity|apply IH, h'].
Qed.
Lemma flat_nodup {A} (l : list A) (m : list (list A)) : NoDup l -> NoDup m -> NoDup (flat_map (fun x => map (cons x) m) l).
Proof.
  intros hl hm. induction hl as [|x l hx hl IH]; [constructor|]. cbn [flat_map].
  assert (h1 : NoDup (map (cons x) m)). { apply FinFun.Injective_map_NoDup; [intros a b e; injection e as e; exact e|exact hm]. }
  revert h1. assert (h2 : forall c, In c (map (cons x) m) -> ~ In c (flat_map (fun x => map (cons x) m) l)).
  { intros c hc h. apply in_map_iff in hc. destruct hc as (c' & <- & _). apply in_flat_map in h. destruct h as (y & hy & h). apply in_map_iff in h. destruct h as (c2 & e & _). injection e as e _. subst y. exact (hx hy). }
  induction (map (cons x) m) as [|c cs IHc]; intros h1; [exact IH|]. cbn [app]. inversion h1 as [|? ? h3 h4]; subst. constructor.
  - rewrite in_app_iff. intros [h|h]; [exact (h3 h)|]. exact (h2 c (or_introl eq_refl) h).
  - apply IHc; [|exact h4]. intros c' hc'. apply h2. right. exact hc'.
Qed.
Lemma product_nodup {T} (values : list (list T)) : Forall (@NoDup T) values -> NoDup (product values).
Proof. induction 1 as [|l rest h _ IH]; cbn [product]; [constructor; [intros []|constructor]|]. apply flat_nodup; assumption. Qed.
Lemma variants_in params : forall stack s, In s (variants params stack) <->
  length s = length stack /\ forall i v w, nth_error stack i = Some v -> nth_error s i = Some w -> w = v \/ exists samples, nth_error params i = Some samples /\ In w samples.
Proof.
  induction params as [|samples rest IH]; intros stack s.
  - cbn [variants In]. split.
    + intros [<-|[]]. split; [reflexivity|]. intros i v w e1 e2. left. congruence.
    + intros (hl & h). left. revert s hl h. induction stack as [|v st IH]; intros [|w s] hl h; try discriminate hl; [reflexivity|].
      assert (e : w = v). { destruct (h O v w eq_refl eq_refl) as [e|(x & e & _)]; [exact e|discriminate e]. } subst w. f_equal. apply IH; [cbn in hl; lia|].
      intros i a b e1 e2. destruct (h (S i) a b e1 e2) as [e|(x & e & _)]; [left; exact e|discriminate e].
  - destruct stack as [|v st].
    + cbn [variants In]. split; [intros [<-|[]]|].
      * split; [reflexivity|]. intros [|i] x y e; discriminate e.
      * intros (hl & _). left. destruct s; [reflexivity|discriminate hl].
    + cbn [variants]. rewrite in_flat_map. split.
      * intros (x & hx & h). apply in_map_iff in h. destruct h as (s' & <- & h). apply IH in h. destruct h as (hl & h). split; [cbn; lia|].
        intros [|i] a b e1 e2; cbn in e1, e2.
        -- injection e1 as <-. injection e2 as <-. destruct hx as [<-|hx]; [left; reflexivity|]. right. exists samples. split; [reflexivity|exact hx].
        -- exact (h i a b e1 e2).
      * intros (hl & h). destruct s as [|w s]; [discriminate hl|]. exists w. split.
        -- destruct (h O v w eq_refl eq_refl) as [e|(x & e & hx)]; [left; auto|]. injection e as <-. right. exact hx.
        -- apply in_map_iff. exists s. split; [reflexivity|]. apply IH. split; [cbn in hl; lia|]. intros i a b e1 e2. exact (h (S i) a b e1 e2).
Qed.
Lemma flat_length {A} (l : list A) (m : list (list A)) : zlen (flat_map (fun x => map (cons x) m) l) = zlen l * zlen m.
Proof. unfold zlen. induction l as [|x l IH]; [reflexivity|]. cbn [flat_map]. rewrite app_length, map_length. cbn [length]. lia. Qed.
Lemma fold_mul l : forall a, fold_left Z.mul l a = a * fold_left Z.mul l 1.
Proof. induction l as [|x l IH]; intros a; cbn [fold_left]; [lia|]. rewrite (IH (a * x)), (IH (1 * x)). lia. Qed.
Lemma product_length {T} (values : list (list T)) : zlen (product values) = fold_left Z.mul (map zlen values) 1.
Proof. induction values as [|l rest IH]; [reflexivity|]. cbn [product map fold_left]. rewrite flat_length, fold_mul, IH. lia. Qed.
Lemma variants_length params : forall stack,
  1 <= zlen (variants params stack) <= fold_left Z.mul (map (fun s => zlen s + 1) params) 1 /\
  (zlen params <= zlen stack -> zlen (variants params stack) = fold_left Z.mul (map (fun s => zlen s + 1) params) 1).
Proof.
  assert (hp : forall params, 1 <= fold_left Z.mul (map (fun s : list Z => zlen s + 1) params) 1).
  { induction params0 as [|s rest IH]; cbn [map fold_left]; [lia|]. rewrite fold_mul. assert (0 <= zlen s) by (unfold zlen; lia). nia. }
  induction params as [|s rest IH]; intros stack.
  - cbn. unfold zlen. cbn. lia.
  - pose proof (hp rest) as h. cbn [map fold_left]. rewrite fold_mul. destruct stack as [|v st].
    + cbn [variants]. replace (zlen [@nil Z]) with 1 by reflexivity. assert (0 <= zlen s) by (unfold zlen; lia). split; [nia|]. replace (zlen (s :: rest)) with (zlen rest + 1) by (unfold zlen; cbn [length]; lia). replace (zlen (@nil Z)) with 0 by reflexivity. assert (0 <= zlen rest) by (unfold zlen; lia). lia.
    + cbn [variants]. rewrite flat_length. specialize (IH st). replace (zlen (v :: s)) with (zlen s + 1) by (unfold zlen; cbn [length]; lia).
      assert (hs : 0 <= zlen s) by (unfold zlen; lia). split; [nia|]. intros hz. rewrite (proj2 IH); [lia|]. unfold zlen in hz |- *. cbn [length] in hz. lia.
Qed.
(** *** the number of cases *)
Lemma calls_counted {O W} (consume : list Z * O -> W -> bool * W) o l : forall w n,
  let '(r, wn) := calls (fun s => counted consume (s, o)) l (w, n) in n <= snd wn <= n + zlen l /\ (r = true -> snd wn = n + zlen l).
Proof.
  induction l as [|x l IH]; intros w n; cbn [calls].
  - unfold zlen. cbn. split; [lia|intros _; lia].
  - unfold counted at 1. cbn [fst snd]. destruct (consume (x, o) w) as [[|] w1].
    + specialize (IH w1 (n + 1)). destruct (calls _ l (w1, n + 1)) as [r wn]. unfold zlen in *. cbn [length]. destruct IH as [h1 h2]. split; [lia|]. intros e. specialize (h2 e). lia.
    + cbn [snd]. unfold zlen. cbn [length]. split; [lia|discriminate].
Qed.
Lemma count_bound {T G O W} (restrict : T -> G -> G) (generate : G -> W -> @generated O * W) consume values params new w :
  0 <= snd (snd (EnumerateTestCases (counted consume) restrict (uncounted generate) values params new (w, 0))) <= TotalNumberOfCases values params.
Proof.
  rewrite enumerate_calls. unfold TotalNumberOfCases. rewrite fold_mul, <- product_length. set (K := fold_left Z.mul _ 1).
  pose proof (proj1 (variants_length params [])) as hk. fold K in hk.
  assert (hone : forall c e w n, n <= snd (snd (snd (one_combination restrict (uncounted generate) params new (counted consume) c (e, (w, n))))) <= n + K).
  { intros c e w0 n. unfold one_combination, uncounted. cbn [fst snd]. destruct (generate _ w0) as [[[stack o]| |] w1]; [|cbn [fst snd]; lia|cbn [fst snd]; lia].
    pose proof (calls_counted consume o (variants params stack) w1 n) as hc. destruct (calls _ (variants params stack) (w1, n)) as [r [w2 n2]]. cbn [snd] in hc |- *.
    pose proof (proj1 (variants_length params stack)) as hv. fold K in hv. lia. }
  assert (h : forall l e w n, n <= snd (snd (snd (calls (one_combination restrict (uncounted generate) params new (counted consume)) l (e, (w, n))))) <= n + zlen l * K).
  { induction l as [|c l IH]; intros e w0 n; cbn [calls].
    - unfold zlen. cbn [length snd]. lia.
    - replace (zlen (c :: l)) with (zlen l + 1) by (unfold zlen; cbn [length]; lia). assert (hl : 0 <= zlen l) by (unfold zlen; lia).
      replace ((zlen l + 1) * K) with (zlen l * K + K) by ring. assert (hm : 0 <= zlen l * K) by nia. specialize (hone c e w0 n).
      destruct (one_combination _ _ _ _ _ c (e, (w0, n))) as [r [e1 [w1 n1]]]. cbn [snd] in hone. destruct r; [specialize (IH e1 w1 n1); lia|cbn [snd]; lia]. }
  specialize (h (product values) false w 0). lia.
Qed.
Lemma count_exact {T G O W} (restrict : T -> G -> G) (generate : G -> W -> @generated O * W) consume values params new w :
  (forall g w, exists stack o w', generate g w = (State (stack, o), w') /\ zlen params <= zlen stack) -> (forall s w, fst (consume s w) = true) ->
  snd (snd (EnumerateTestCases (counted consume) restrict (uncounted generate) values params new (w, 0))) = TotalNumberOfCases values params.
Proof.
  intros hg hc. rewrite enumerate_calls. unfold TotalNumberOfCases. rewrite fold_mul, <- product_length. set (K := fold_left Z.mul _ 1).
  assert (hk : forall o l w, fst (calls (fun s => counted consume (s, o)) l w) = true).
  { intros o. induction l as [|x l IH]; intros [w0 n]; [reflexivity|]. cbn [calls]. unfold counted at 1. cbn [fst snd]. pose proof (hc (x, o) w0) as e. destruct (consume (x, o) w0) as [r w1]. cbn in e. subst r. apply IH. }
  assert (hone : forall c e w n, exists e' w', one_combination restrict (uncounted generate) params new (counted consume) c (e, (w, n)) = (true, (e', (w', n + K)))).
  { intros c e w0 n. unfold one_combination, uncounted. cbn [fst snd]. destruct (hg (fold_left (fun g t => restrict t g) c new) w0) as (stack & o & w1 & -> & hs).
    pose proof (calls_counted consume o (variants params stack) w1 n) as hcc. pose proof (hk o (variants params stack) (w1, n)) as hr.
    destruct (calls _ (variants params stack) (w1, n)) as [r [w2 n2]]. cbn [snd fst] in hcc, hr. subst r. destruct hcc as [_ hcc]. rewrite (hcc eq_refl).
    pose proof (proj2 (variants_length params stack) hs) as hv. fold K in hv. rewrite hv. eauto. }
  assert (h : forall l e w n, snd (snd (snd (calls (one_combination restrict (uncounted generate) params new (counted consume)) l (e, (w, n))))) = n + zlen l * K).
  { induction l as [|c l IH]; intros e w0 n; cbn [calls].
    - unfold zlen. cbn [length snd]. lia.
    - replace (zlen (c :: l)) with (zlen l + 1) by (unfold zlen; cbn [length]; lia). destruct (hone c e w0 n) as (e1 & w1 & ->). rewrite IH. ring. }
  rewrite h. lia.
Qed.
