(** The values that the generators bind variables to; the lists of the generator of states. *)
From Verif Require Import Base Host GoStorage SpecEvm SpecRules ArithFacts MemFacts JumpFacts CtSolve SpecSolve CtSolveFacts CtGen SpecGen CtStackFacts CtStorageFacts CtTransientFacts
  CtCodeGen SpecCode CtCodeGenFacts CtCodeGenFacts2 CtContext SpecContext CtContextFacts CtBlockFacts CtAccounts SpecAccounts CtAccountsFacts CtAccountsFacts2 CtState SpecState.
From Coq Require Import ZArith List Bool Lia Permutation.
Import ListNotations.
Open Scope Z_scope.

Definition holds (P : Z -> Prop) (a : Assignment) : Prop := forall x v, a x = Some v -> P v.
Lemma holds_put P a x v : holds P a -> P v -> holds P (put a x v).
Proof. intros h hv y w. unfold put. destruct (y =? x); [intros e; injection e as <-; exact hv|apply h]. Qed.

Section Preserve.
Variable P : Z -> Prop.
Variable rnd : nat -> Z.
Hypothesis hrnd : forall i, P (rnd i).
Hypothesis h0 : P 0.
Variable fuel : nat.

Lemma retry_P : forall n ex g v g', retry rnd n ex g = Generated (v, g') -> P v /\ asg g' = asg g.
Proof.
  induction n as [|n ih]; intros ex g v g' e; cbn [retry draw] in e; [discriminate|]. destruct (existsb _ ex); [apply ih in e; exact e|].
  injection e as <- <-. split; [apply hrnd|reflexivity].
Qed.
Lemma unused_P g v g' : getUnusedKey rnd fuel g = Generated (v, g') -> P v /\ asg g' = asg g.
Proof. unfold getUnusedKey. intros e. apply bind_gen in e. destruct e as ([k g1] & e1 & e2). injection e2 as <- <-. apply retry_P in e1. exact e1. Qed.
Lemma key_P x g v g' : holds P (asg g) -> getKey rnd fuel x g = Generated (v, g') -> holds P (asg g').
Proof.
  intros h e. unfold getKey in e. destruct (asg g x) eqn:ex; [injection e as <- <-; exact h|]. apply bind_gen in e. destruct e as ([k g1] & e1 & e2). injection e2 as <- <-.
  apply unused_P in e1. destruct e1 as [hk e1]. cbn [asg]. rewrite e1. apply holds_put; assumption.
Qed.
Lemma pick_new_P con g v g' : holds P (asg g) -> pick_new rnd fuel con g = Generated (v, g') -> holds P (asg g').
Proof.
  intros h e. unfold pick_new in e. destruct (asg g (c_new con)); [destruct (_ || _); [discriminate|injection e as <- <-; exact h]|].
  apply bind_gen in e. destruct e as ([k g1] & e1 & e2). injection e2 as <- <-. cbn [asg].
  assert (P k /\ asg g1 = asg g) as [hk ->]; [|apply holds_put; assumption].
  destruct (NewValueMustBeZero _); [injection e1 as <- <-; split; [exact h0|reflexivity]|]. destruct (NewValueMustNotBeZero _); [apply retry_P in e1; exact e1|].
  cbn [draw] in e1. destruct (_ =? 0); injection e1 as <- <-; (split; [|reflexivity]); [exact h0|apply hrnd].
Qed.
Lemma pick_values_asg s new g o c g' : pick_values rnd fuel s new g = Generated (o, c, g') -> asg g' = asg g.
Proof.
  unfold pick_values, randValueButNot. intros e. destruct s;
    repeat match goal with
    | h : gbind _ _ = Generated _ |- _ => apply bind_gen in h; destruct h as ([? ?] & ? & h)
    | h : retry _ _ _ _ = Generated _ |- _ => apply retry_P in h; destruct h as [_ h]
    | h : Generated _ = Generated _ |- _ => injection h as <- <- <-
    end; congruence.
Qed.
Lemma configs_P : forall l s g s' g', holds P (asg g) -> configs rnd fuel l s g = Generated (s', g') -> holds P (asg g').
Proof.
  induction l as [|con l ih]; intros s g s' g' h e; cbn [configs] in e; [injection e as <- <-; exact h|].
  apply bind_gen in e. destruct e as ([k g1] & e1 & e). apply bind_gen in e. destruct e as ([v g2] & e2 & e). apply bind_gen in e. destruct e as ([[o c] g3] & e3 & e).
  apply ih in e; [exact e|]. rewrite (pick_values_asg _ _ _ _ _ _ e3). apply (pick_new_P _ _ _ _ (key_P _ _ _ _ h e1) e2).
Qed.
Lemma warms_P : forall l s g s' g', holds P (asg g) -> warms rnd fuel l s g = Generated (s', g') -> holds P (asg g').
Proof.
  induction l as [|con l ih]; intros s g s' g' h e; cbn [warms] in e; [injection e as <- <-; exact h|].
  apply bind_gen in e. destruct e as ([k g1] & e1 & e). apply key_P in e1; [|exact h]. destruct (IsInOriginal k s); cbn [draw] in e; (apply ih in e; [exact e|exact e1]).
Qed.
Lemma extras_asg : forall n s g s' g', extras rnd fuel n s g = Generated (s', g') -> asg g' = asg g.
Proof.
  induction n as [|n ih]; intros s g s' g' e; cbn [extras] in e; [injection e as <- <-; reflexivity|].
  apply bind_gen in e. destruct e as ([k g1] & e1 & e). cbn [draw] in e. apply unused_P in e1. apply ih in e. cbn [asg] in e. rewrite e. exact (proj2 e1).
Qed.
Lemma storage_P a g s b : holds P a -> StorageGenerate rnd fuel a g = Generated (s, b) -> holds P b.
Proof.
  intros h e. unfold StorageGenerate in e. cbv zeta in e. destruct (neighbours config_conflict _); [discriminate|]. destruct (neighbours warm_conflict _); [discriminate|].
  apply bind_gen in e. destruct e as ([s1 g1] & e1 & e). apply bind_gen in e. destruct e as ([s2 g2] & e2 & e). cbn [draw] in e. apply bind_gen in e. destruct e as ([s3 g3] & e3 & e).
  injection e as <- <-. apply extras_asg in e3. cbn [asg] in e3. rewrite e3. apply warms_P in e2; [exact e2|]. apply configs_P in e1; [exact e1|exact h].
Qed.
Lemma transients_P all : forall l s g s' g', holds P (asg g) -> CtGen.transients rnd fuel all l s g = Generated (s', g') -> holds P (asg g').
Proof.
  induction l as [|[x nz] l ih]; intros s g s' g' h e; cbn [CtGen.transients] in e; [injection e as <- <-; exact h|].
  destruct (match asg g x with Some _ => _ | None => _ end); [discriminate|]. apply bind_gen in e. destruct e as ([k g1] & e1 & e).
  assert (P k /\ asg g1 = asg g) as [hk e1'].
  { destruct (asg g x) as [w|] eqn:ex; [injection e1 as <- <-; split; [exact (h x w ex)|reflexivity]|apply unused_P in e1; exact e1]. }
  destruct nz; cbn [draw] in e; (apply ih in e; [exact e|]; cbn [asg]; rewrite e1'; apply holds_put; assumption).
Qed.
Lemma transient_P order a t s b : holds P a -> TransientGenerate rnd fuel order a t = Generated (s, b) -> holds P b.
Proof.
  intros h e. unfold TransientGenerate in e. destruct (t_unsat t); [discriminate|]. cbv zeta in e.
  apply bind_gen in e. destruct e as ([s1 g1] & e1 & e). apply bind_gen in e. destruct e as (s2 & _ & e). injection e as <- <-. apply transients_P in e1; [exact e1|exact h].
Qed.
End Preserve.

Section PreserveAccounts.
Variable P : Z -> Prop.
Variable ch : choices.
Hypothesis hch : forall i, P (NewAddress (ch_address ch i)).
Variable fuel : nat.
Lemma address_P x g v g' : holds P (asg g) -> getBoundOrBindNewAddress ch fuel x g = Generated (v, g') -> holds P (asg g').
Proof.
  intros h e. unfold getBoundOrBindNewAddress in e. destruct (asg g x) eqn:ex; [injection e as <- <-; exact h|]. apply bind_gen in e. destruct e as ([k g1] & e1 & e2). injection e2 as <- <-.
  apply (unused_P P _ hch) in e1. destruct e1 as [hk e1]. cbn [asg]. rewrite e1. apply holds_put; assumption.
Qed.
Lemma empties_P : forall l E N g E' N' g', holds P (asg g) -> empties ch fuel l E N g = Generated (E', N', g') -> holds P (asg g').
Proof.
  induction l as [|con l ih]; intros E N g E' N' g' h e; cbn [empties] in e; [injection e as <- <- <-; exact h|].
  apply bind_gen in e. destruct e as ([k g1] & e1 & e). apply address_P in e1; [|exact h].
  destruct (wc_warm con); [destruct (has N k)|destruct (has E k)]; try discriminate; (apply ih in e; [exact e|exact e1]).
Qed.
Lemma account_warms_P : forall l s g s' g', holds P (asg g) -> account_warms ch fuel l s g = Generated (s', g') -> holds P (asg g').
Proof.
  induction l as [|con l ih]; intros s g s' g' h e; cbn [account_warms] in e; [injection e as <- <-; exact h|].
  apply bind_gen in e. destruct e as ([k g1] & e1 & e). apply address_P in e1; [|exact h]. apply ih in e; assumption.
Qed.
Lemma lowers_P : forall l keys m g keys' m' g', holds P (asg g) -> lowers ch fuel l keys m g = Generated (keys', m', g') -> holds P (asg g').
Proof.
  induction l as [|[x v] l ih]; intros keys m g keys' m' g' h e; cbn [lowers] in e; [injection e as <- <- <-; exact h|].
  apply bind_gen in e. destruct e as ([k g1] & e1 & e). apply address_P in e1; [|exact h]. destruct (_ <? v); apply ih in e; assumption.
Qed.
Lemma uppers_P : forall l keys m g keys' m' g', holds P (asg g) -> uppers ch fuel l keys m g = Generated (keys', m', g') -> holds P (asg g').
Proof.
  induction l as [|[x v] l ih]; intros keys m g keys' m' g' h e; cbn [uppers] in e; [injection e as <- <- <-; exact h|].
  apply bind_gen in e. destruct e as ([k g1] & e1 & e). apply address_P in e1; [|exact h]. destruct (match m k with Some _ => _ | None => _ end); apply ih in e; assumption.
Qed.
Lemma accounts_P a own g s b : holds P a -> AccountsGenerate ch fuel a own g = Generated (s, b) -> holds P b.
Proof.
  intros h e. unfold AccountsGenerate in e. cbv zeta in e. destruct (neighbours warm_conflict _); [discriminate|]. destruct (neighbours warm_conflict _); [discriminate|].
  apply bind_gen in e. destruct e as ([[E N] g1] & e1 & e). apply bind_gen in e. destruct e as ([s2 g2] & e2 & e). apply bind_gen in e. destruct e as ([[k1 m1] g3] & e3 & e).
  apply bind_gen in e. destruct e as ([[k2 m2] g4] & e4 & e). apply bind_gen in e. destruct e as (s3 & _ & e). apply bind_gen in e. destruct e as (s4 & _ & e). injection e as _ <-.
  apply empties_P in e1; [|exact h]. apply account_warms_P in e2; [|exact e1]. apply lowers_P in e3; [|exact e2]. apply uppers_P in e4; assumption.
Qed.
End PreserveAccounts.

(** *** Blob hash indices *)
Lemma in_uint64 v : 0 <= v < 2 ^ 64 -> in_type tUint64 v.
Proof. unfold in_type, it_min, it_max, tUint64. cbn -[Z.pow]. lia. Qed.
Lemma range_value r lo hi : proper r -> 0 <= lo < 2 ^ 64 -> 0 <= hi < 2 ^ 64 ->
  match solved (RangeGenerate tUint64 r (NewRangeSolver lo hi)) with Generated v => lo <= v <= hi | ErrUnsatisfiable => True | _ => False end.
Proof.
  intros hr h1 h2. destruct (range_solver_correct tUint64 lo hi [] ltac:(split; [cbn; lia|left; reflexivity]) (in_uint64 _ h1) (in_uint64 _ h2) (Forall_nil _) (Forall_nil _)) as [[H _] _].
  specialize (H r hr). cbn [range_solver fold_left] in H. unfold range_solver in H. cbn [fold_left] in H. destruct (RangeGenerate _ _ _); cbn; [exact (proj1 H)|exact Logic.I|exact H].
Qed.
Lemma bound_indices_count a : forall order m l, 0 <= m < 2 ^ 64 -> 0 <= l < 2 ^ 64 -> words a -> match bound_indices a order m l with Generated (m', l') => 0 <= m' < 2 ^ 64 /\ 0 <= l' < 2 ^ 64 | ErrUnsatisfiable => True | _ => False end.
Proof.
  induction order as [|[x h] order ih]; intros m l hm hl ha; cbn [bound_indices]; [split; assumption|]. destruct (a x) as [v|] eqn:e; [|apply ih; assumption].
  pose proof (ha x v e) as hv. unfold is_word in hv. unfold IsUint64.
  destruct h.
  - destruct (Z.ltb_spec v (2 ^ 64)); cbn [negb]; [|exact Logic.I]. apply ih; [|exact hl|exact ha]. destruct (v >? m); lia.
  - apply ih; [exact hm| |exact ha]. destruct (Z.ltb_spec v (2 ^ 64)); cbn [andb]; [|exact hl]. destruct (v <? l); lia.
Qed.
Lemma bind_indices_words rnd : (forall i, proper (rnd i)) -> forall order i count a, 0 <= count < 2 ^ 64 -> words a ->
  match bind_indices rnd i count order a with Generated b => words b | ErrUnsatisfiable => True | _ => False end.
Proof.
  intros hr. induction order as [|[x h] order ih]; intros i count a hc ha; cbn [bind_indices]; [exact ha|]. destruct (a x) eqn:ex; [apply ih; assumption|]. cbv zeta.
  assert (match solved (RangeGenerate tUint64 (rnd i) (if h then NewRangeSolver 0 (uint64 (count - 1)) else NewRangeSolver count (2 ^ 64 - 1))) with Generated v => 0 <= v < 2 ^ 64 | ErrUnsatisfiable => True | _ => False end) as H.
  { destruct h.
    - pose proof (Z.mod_pos_bound (count - 1) (2 ^ 64) ltac:(lia)) as hb. pose proof (range_value (rnd i) 0 (uint64 (count - 1)) (hr i) ltac:(lia) hb) as H. unfold uint64 in *. destruct (solved _); try exact H. lia.
    - pose proof (range_value (rnd i) count (2 ^ 64 - 1) (hr i) hc ltac:(lia)) as H. destruct (solved _); try exact H. lia. }
  destruct (solved _) as [v| | | |]; cbn [gbind]; try exact H. apply ih; [exact hc|]. intros y w. unfold put. destruct (y =? x); [intros e; injection e as <-; unfold is_word; lia|apply ha].
Qed.
Lemma tx_words rnd order order' a t : (forall i, proper (rnd i)) -> words a ->
  match TxGenerate rnd order order' a t with Generated (c, b) => words b | ErrUnsatisfiable => True | _ => False end.
Proof.
  intros hr ha. unfold TxGenerate. destruct (tg_unsat t); [exact Logic.I|]. pose proof (bound_indices_count a order 0 (2 ^ 64 - 1) ltac:(lia) ltac:(lia) ha) as h1.
  destruct (bound_indices a order 0 (2 ^ 64 - 1)) as [[m l]| | | |]; cbn [gbind]; try exact h1. destruct (_ || _); [exact Logic.I|]. cbv zeta.
  match goal with |- context [bind_indices rnd 0 ?c order' a] => assert (hc : 0 <= c < 2 ^ 64) by (unfold uint64; apply Z.mod_pos_bound; lia); pose proof (bind_indices_words rnd hr order' 0 c a hc ha) as h2; destruct (bind_indices rnd 0 c order' a) end;
    cbn [gbind]; exact h2.
Qed.

(** *** The code generator leaves other variables alone *)
Lemma find_asg rnd size good s p s' : find_position rnd size good s = Generated (p, s') -> v_asg s' = v_asg s.
Proof.
  unfold find_position. intros e. apply bind_gen in e. destruct e as ([i s1] & e1 & e). apply bind_gen in e. destruct e as (q & _ & e). injection e as <- <-. apply draw_spec in e1. destruct e1 as (_ & _ & _ & e1). exact e1.
Qed.
Section Other.
Variables (rnd : nat -> Z) (size : Z) (x : Z).
Lemma ops_other l : ~ In x (map fst l) -> forall bound s s', solveVarOps rnd size l bound s = Generated s' -> v_asg s' x = v_asg s x.
Proof.
  induction l as [|[v op] l ih]; intros hx bound s s' e; cbn [solveVarOps] in e; [injection e as <-; reflexivity|]. cbn in hx.
  destruct (bound v); [destruct (_ =? op); [apply (ih ltac:(tauto) _ _ _ e)|discriminate]|]. apply bind_gen in e. destruct e as ([p s1] & e1 & e). apply find_asg in e1.
  apply ih in e; [|tauto]. rewrite e. cbn [assign place v_asg]. rewrite CtStorageFacts.put_neq by (intros ->; apply hx; left; reflexivity). rewrite e1. reflexivity.
Qed.
Lemma codes_other l : ~ In x l -> forall s s', solveIsCode rnd size l s = Generated s' -> v_asg s' x = v_asg s x.
Proof.
  induction l as [|v l ih]; intros hx s s' e; cbn [solveIsCode] in e; [injection e as <-; reflexivity|]. cbn in hx.
  destruct (match v_asg s v with Some _ => _ | None => _ end) as [[|]|]; [apply (ih ltac:(tauto) _ _ e)|discriminate|].
  apply bind_gen in e. destruct e as ([p s1] & e1 & e). apply bind_gen in e. destruct e as (s2 & e2 & e). apply find_asg in e1. apply ih in e; [|tauto]. rewrite e. cbn [assign v_asg].
  rewrite CtStorageFacts.put_neq by (intros ->; apply hx; left; reflexivity). destruct (unused _ _); [|injection e2 as <-; rewrite e1; reflexivity].
  apply bind_gen in e2. destruct e2 as ([i s3] & e3 & e2). injection e2 as <-. cbn [place v_asg]. apply draw_spec in e3. destruct e3 as (_ & _ & _ & e3). rewrite e3, e1. reflexivity.
Qed.
Lemma datas_other l : ~ In x l -> forall s s', solveIsData rnd size l s = Generated s' -> v_asg s' x = v_asg s x.
Proof.
  induction l as [|v l ih]; intros hx s s' e; cbn [solveIsData] in e; [injection e as <-; reflexivity|]. cbn in hx.
  destruct (match v_asg s v with Some _ => _ | None => _ end); [discriminate|].
  apply bind_gen in e. destruct e as ([p s1] & e1 & e). apply find_asg in e1. destruct (unused _ _).
  - apply bind_gen in e. destruct e as ([i s2] & e2 & e). cbv zeta in e. apply bind_gen in e. destruct e as ([j s3] & e3 & e). apply draw_spec in e2, e3. destruct e2 as (_ & _ & _ & e2), e3 as (_ & _ & _ & e3).
    apply ih in e; [|tauto]. rewrite e. cbn [assign v_asg]. rewrite CtStorageFacts.put_neq by (intros ->; apply hx; left; reflexivity). rewrite e3. cbn [place v_asg]. rewrite e2, e1. reflexivity.
  - apply ih in e; [|tauto]. rewrite e. cbn [assign v_asg]. rewrite CtStorageFacts.put_neq by (intros ->; apply hx; left; reflexivity). rewrite e1. reflexivity.
Qed.
End Other.
Lemma code_other rnd fill e a qs code b x : CodeGenerate rnd fill e a (code_generator qs) = Generated (code, b) ->
  (forall o, ~ In (OpVar x o) qs) -> ~ In (CodeVar x) qs -> ~ In (DataVar x) qs -> b x = a x.
Proof.
  intros h h1 h2 h3. rewrite generator_fields in h. unfold CodeGenerate in h. cbn [constOps varOps varIsCode varIsData] in h. destruct (bind_ops a _ _ []) as [[ops vars]|] eqn:eb; [|discriminate].
  cbv zeta in h. destruct (_ <? 0); [discriminate|]. apply bind_gen in h. destruct h as ([ops' b'] & e1 & h).
  assert (b' = b) as ->.
  { destruct ops'; [injection h as _ <-; reflexivity|]. destruct (_ >=? _); [discriminate|]. apply bind_gen in h. destruct h as (c & _ & h). injection h as _ <-. reflexivity. }
  destruct (negb _); [|injection e1 as _ <-; reflexivity]. unfold solve in e1.
  apply bind_gen in e1. destruct e1 as (s1 & k1 & e1). apply bind_gen in e1. destruct e1 as (s2 & k2 & e1). apply bind_gen in e1. destruct e1 as (s3 & k3 & e1). injection e1 as _ <-.
  rewrite (datas_other _ _ x _ ltac:(rewrite data_in; exact h3) _ _ k3), (codes_other _ _ x _ ltac:(rewrite code_in; exact h2) _ _ k2). apply ops_other with (x := x) in k1; [exact k1|].
  destruct (bind_ops_spec _ _ _ _ _ _ eb) as [_ hv]. intros hin. apply in_map_iff in hin. destruct hin as ([y o] & ey & hin). cbn in ey. subst y. apply hv in hin. destruct hin as [[]|[hin _]].
  apply var_in in hin. exact (h1 o hin).
Qed.
