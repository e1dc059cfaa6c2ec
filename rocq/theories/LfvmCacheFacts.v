(** The cache of converted codes. *)
From Verif Require Import Base Host SpecEvm GoAdapter LfvmCode Lfvm LfvmCache SpecVm LfvmRun.
From Coq Require Import ZArith List Bool Lia.
Import ListNotations.
Open Scope Z_scope.

Section Facts.
Variable L : lib_cache.
Hypothesis HL : lib_ok L.
Variable super : bool.

Definition cinv (es : list cevent) (s : cstate L) : Prop :=
  (forall st, cs_cache s = Some st -> forall k v, In (k, v) (contents L st) -> zlen v <= maxCachedCodeLength /\ exists t code, In (CCall t code (Some k)) es /\ convert super code = Ok v) /\
  (forall t, match cs_threads s t with
             | CIdle => True
             | CGet code h | CAdd code h => In (CCall t code (Some h)) es /\ cs_cache s <> None
             | CPure code h => In (CCall t code h) es
             end) /\
  (honest es -> forall t code h lc, In (CReturn t code h lc) es -> convert super code = Ok lc).

Lemma cupd_same ts t x : cupd ts t x t = x.
Proof. unfold cupd. rewrite Nat.eqb_refl. reflexivity. Qed.
Lemma cupd_other ts t u x : u <> t -> cupd ts t x u = ts u.
Proof. intros hn. unfold cupd. destruct (Nat.eqb_spec u t); [contradiction|reflexivity]. Qed.
Lemma honest_app es es' : honest (es ++ es') -> honest es.
Proof. intros h t1 c1 t2 c2 k h1 h2. eapply h; apply in_or_app; left; eassumption. Qed.

Lemma step_cinv es s e s' : cinv es s -> cstep L super s e s' -> cinv (es ++ match e with Some e => [e] | None => [] end) s'.
Proof.
  intros (hc & ht & hr) hs. destruct HL as [_ lg la].
  assert (keep : forall es' : list cevent, (forall st, cs_cache s = Some st -> forall k v, In (k, v) (contents L st) -> zlen v <= maxCachedCodeLength /\ exists t code, In (CCall t code (Some k)) (es ++ es') /\ convert super code = Ok v)).
  { intros es' st est k v hi. destruct (hc st est k v hi) as (hl & t & code & h1 & h2). split; [exact hl|]. exists t, code. split; [apply in_or_app; left; exact h1|exact h2]. }
  assert (keept : forall es' : list cevent, forall t, match cs_threads s t with CIdle => True | CGet code h | CAdd code h => In (CCall t code (Some h)) (es ++ es') /\ cs_cache s <> None | CPure code h => In (CCall t code h) (es ++ es') end).
  { intros es' t. specialize (ht t). destruct (cs_threads s t); try exact ht; try (destruct ht as [h1 h2]; split; [apply in_or_app; left; exact h1|exact h2]). apply in_or_app. left. exact ht. }
  assert (keepr : forall e', (forall t code h lc, e' <> CReturn t code h lc) -> honest (es ++ [e']) -> forall t code h lc, In (CReturn t code h lc) (es ++ [e']) -> convert super code = Ok lc).
  { intros e' hne hh t code h lc hi. apply in_app_or in hi. destruct hi as [hi|[hi|[]]]; [exact (hr (honest_app _ _ hh) t code h lc hi)|exfalso; exact (hne _ _ _ _ hi)]. }
  assert (addr : forall t0 code0 h0 lc0, (honest es -> convert super code0 = Ok lc0) -> honest (es ++ [CReturn t0 code0 h0 lc0]) -> forall t code h lc, In (CReturn t code h lc) (es ++ [CReturn t0 code0 h0 lc0]) -> convert super code = Ok lc).
  { intros t0 code0 h0 lc0 hok hh t code h lc hi. apply in_app_or in hi. destruct hi as [hi|[hi|[]]]; [exact (hr (honest_app _ _ hh) t code h lc hi)|]. injection hi as <- <- <- <-. exact (hok (honest_app _ _ hh)). }
  destruct hs as [c ts t code h et|c ts t code h lc et ec|st ts t code h lc st' et eg|st ts t code h st' et eg|c ts t code h lc et ec el|st ts t code h lc et ec el]; cbn [cs_cache cs_threads] in *.
  - split; [apply keep|]. split; [|apply keepr; intros; discriminate].
    intros u. cbn [cs_threads]. destruct (Nat.eq_dec u t) as [-> | hn]; [|rewrite cupd_other by exact hn; apply keept].
    rewrite cupd_same. destruct c as [st|]; [destruct h as [h|]|]; try (split; [|discriminate]); apply in_or_app; right; left; reflexivity.
  - split; [apply keep|]. split; [|apply addr; intros _; exact ec].
    intros u. cbn [cs_threads]. destruct (Nat.eq_dec u t) as [-> | hn]; [rewrite cupd_same; exact Logic.I|rewrite cupd_other by exact hn; apply keept].
  - pose proof (lg h st) as X. rewrite eg in X. cbn [fst snd] in X. destruct X as [X1 X2]. specialize (X2 lc eq_refl).
    split; [|split].
    + intros st0 [= <-] k v hi. apply (keep _ st eq_refl). apply X1. exact hi.
    + intros u. cbn [cs_threads cs_cache]. destruct (Nat.eq_dec u t) as [-> | hn]; [rewrite cupd_same; exact Logic.I|rewrite cupd_other by exact hn].
      pose proof (keept [CReturn t code (Some h) lc] u) as Y. destruct (ts u); try exact Y; (split; [apply Y|discriminate]).
    + apply addr. intros hh. destruct (hc st eq_refl h lc X2) as (_ & t1 & code1 & i1 & e1). specialize (ht t). rewrite et in ht. destruct ht as [i2 _].
      rewrite (hh _ _ _ _ _ i2 i1). exact e1.
  - pose proof (lg h st) as X. rewrite eg in X. cbn [fst snd] in X. destruct X as [X1 _]. rewrite app_nil_r. split; [|split; [|exact hr]].
    + intros st0 [= <-] k v hi. apply (hc st eq_refl). apply X1. exact hi.
    + intros u. cbn [cs_threads cs_cache]. destruct (Nat.eq_dec u t) as [-> | hn].
      * rewrite cupd_same. specialize (ht t). rewrite et in ht. split; [apply ht|discriminate].
      * rewrite cupd_other by exact hn. specialize (ht u). destruct (ts u); try exact ht; (split; [apply ht|discriminate]).
  - split; [apply keep|]. split; [|apply addr; intros _; exact ec].
    intros u. cbn [cs_threads]. destruct (Nat.eq_dec u t) as [-> | hn]; [rewrite cupd_same; exact Logic.I|rewrite cupd_other by exact hn; apply keept].
  - split; [|split].
    + intros st0 [= <-] k v hi. apply la in hi. destruct hi as [[= <- <-]|hi]; [|exact (keep _ st eq_refl k v hi)].
      split; [exact el|]. specialize (ht t). rewrite et in ht. exists t, code. split; [apply in_or_app; left; apply ht|exact ec].
    + intros u. cbn [cs_threads cs_cache]. destruct (Nat.eq_dec u t) as [-> | hn]; [rewrite cupd_same; exact Logic.I|rewrite cupd_other by exact hn].
      pose proof (keept [CReturn t code (Some h) lc] u) as Y. destruct (ts u); try exact Y; (split; [apply Y|discriminate]).
    + apply addr. intros _. exact ec.
Qed.
Lemma exec_cinv cacheSize es s : cexec L super cacheSize es s -> cinv es s.
Proof.
  induction 1 as [c hc|es x y _ ih hs|es x e y _ ih hs].
  - split; [|split].
    + intros st est. cbn [cs_cache] in est. subst c. unfold NewConverter in hc. destruct (0 <? _); [|discriminate].
      pose proof (lib_new_ok L HL (Z.quot (Z.quot (if cacheSize =? 0 then 2 ^ 30 else cacheSize) maxCachedCodeLength) instructionSize)) as X.
      destruct (lib_new L _) as [s0|]; [|discriminate]. injection hc as <-. destruct X as [_ ->]. intros k v [].
    + intros t. exact Logic.I.
    + intros _ t code h lc [].
  - pose proof (step_cinv _ _ _ _ ih hs) as X. rewrite app_nil_r in X. exact X.
  - exact (step_cinv _ _ _ _ ih hs).
Qed.

Theorem convert_cached : forall cacheSize es s, cexec L super cacheSize es s -> honest es ->
  (forall t code h lc, In (CReturn t code h lc) es -> convert super code = Ok lc) /\
  forall st k v, cs_cache s = Some st -> In (k, v) (contents L st) -> zlen v <= maxCachedCodeLength.
Proof.
  intros cacheSize es s hx hh. destruct (exec_cinv _ _ _ hx) as (h1 & _ & h3). split; [exact (h3 hh)|]. intros st k v e hi. apply (h1 st e k v hi).
Qed.
Theorem new_converter : forall cacheSize,
  (cacheSize < 0 -> NewConverter L cacheSize = Some None) /\
  (0 < cacheSize < 98304 -> NewConverter L cacheSize = None) /\
  (cacheSize = 0 \/ 98304 <= cacheSize -> exists s, NewConverter L cacheSize = Some (Some s)).
Proof.
  intros n. unfold NewConverter, maxCachedCodeLength, instructionSize. pose proof (lib_new_ok L HL) as X. split; [|split].
  - intros h. destruct (Z.eqb_spec n 0); [lia|]. destruct (Z.ltb_spec 0 n); [lia|reflexivity].
  - intros h. destruct (Z.eqb_spec n 0); [lia|]. destruct (Z.ltb_spec 0 n); [|lia]. rewrite Z.quot_quot, Z.quot_div_nonneg by lia.
    specialize (X (n / (24576 * 4))). destruct (lib_new L (n / (24576 * 4))); [|reflexivity]. destruct X as [X _].
    assert (n / (24576 * 4) < 1) by (apply Z.div_lt_upper_bound; lia). lia.
  - intros h. rewrite Z.quot_quot, Z.quot_div_nonneg by (destruct (Z.eqb_spec n 0); lia). set (m := if n =? 0 then 2 ^ 30 else n).
    assert (hm : 98304 <= m) by (unfold m; destruct (Z.eqb_spec n 0); lia).
    destruct (Z.ltb_spec 0 m); [|lia]. specialize (X (m / (24576 * 4))). destruct (lib_new L (m / (24576 * 4))); [eauto|].
    assert (1 <= m / (24576 * 4)) by (apply Z.div_le_lower_bound; lia). lia.
Qed.
End Facts.

Section Progress.
Variable L : lib_cache.
Hypothesis HL : lib_ok L.
Theorem convert_moves : forall super cacheSize es s, cexec L super cacheSize es s ->
  (forall t code h, In (CCall t code h) es -> Forall is_byte code /\ zlen code <= 65536) ->
  forall t, cs_threads s t <> CIdle -> exists e s', cstep L super s e s' /\ cs_threads s' t <> cs_threads s t.
Proof.
  intros super cacheSize es s hx hc t hn. destruct (exec_cinv L HL super _ _ _ hx) as (_ & h2 & _). specialize (h2 t).
  destruct s as [c ts]. cbn [cs_cache cs_threads] in *.
  destruct (ts t) as [|code h|code h|code h] eqn:et; [congruence| | |].
  - destruct h2 as [_ h2]. destruct c as [st|]; [|congruence]. destruct (lib_get L h st) as [[lc|] st'] eqn:eg.
    + eexists _, _. split; [eapply cs_hit; eassumption|]. cbn. unfold cupd. rewrite Nat.eqb_refl. discriminate.
    + eexists _, _. split; [eapply cs_miss; eassumption|]. cbn. unfold cupd. rewrite Nat.eqb_refl. discriminate.
  - destruct h2 as [h1 h2]. destruct (hc _ _ _ h1) as [hb hl]. destruct (conversion_ok super code hb hl) as (lc & ec & _).
    destruct c as [st|]; [|congruence]. destruct (Z.le_gt_cases (zlen lc) maxCachedCodeLength).
    + eexists _, _. split; [eapply cs_add; eassumption|]. cbn. unfold cupd. rewrite Nat.eqb_refl. discriminate.
    + eexists _, _. split; [eapply cs_long; try eassumption; lia|]. cbn. unfold cupd. rewrite Nat.eqb_refl. discriminate.
  - destruct (hc _ _ _ h2) as [hb hl]. destruct (conversion_ok super code hb hl) as (lc & ec & _).
    eexists _, _. split; [eapply cs_pure; eassumption|]. cbn. unfold cupd. rewrite Nat.eqb_refl. discriminate.
Qed.
End Progress.

(** ** The whole Run (lfvm.go:119-131): run what the converter returned *)
From Verif Require Import SpecLfvm.
Theorem cached_run : forall L, lib_ok L -> forall super cacheSize es s t h lc, cexec L super cacheSize es s -> honest es ->
  forall W (rc : run_context W) tx Call keccak p rv w, In (CReturn t (p_code p) h lc) es ->
  env_ok rc tx Call keccak (p_depth p) -> run_ok p -> In (p_revision p, rv) revisions ->
  (super = true -> returns_in_range (go_host rc tx) keccak (answers Call) w rv (p_code p) (message_of p)) ->
  let e := evaluate (go_host rc tx) keccak (answers Call) w rv (p_code p) (message_of p) in
  exists w', lrun rc tx Call keccak p lc w = Ok (expected (fst e), w') /\ (unfailed (fst e) -> w' = snd e).
Proof.
  intros L HL super cacheSize es s t h lc hx hh W rc tx Call keccak p rv w hi he hp hr hn e.
  destruct (convert_cached L HL super cacheSize es s hx hh) as [X _]. specialize (X _ _ _ _ hi).
  destruct (lfvm_super rc tx Call keccak super p rv w he hp hr hn) as (w' & e1 & e2). exists w'. split; [|exact e2].
  unfold LfvmRun in e1. destruct (5 <? p_revision p) eqn:e5; [discriminate|]. rewrite X in e1. cbn [rbind] in e1. fold e in e1.
  destruct (lrun rc tx Call keccak p lc w) as [[r w1]| |]; cbn [rbind] in e1; congruence.
Qed.

(** ** A small cache: the last [n] entries *)
Definition small_get (k : list Z) (s : nat * list (list Z * lcode)) : option lcode :=
  match find (fun e => if list_eq_dec Z.eq_dec (fst e) k then true else false) (snd s) with Some e => Some (snd e) | None => None end.
Definition small_lib : lib_cache := {|
  lib_state := nat * list (list Z * lcode);
  lib_new := fun n => if n <? 1 then None else Some (Z.to_nat n, []);
  lib_get := fun k s => (small_get k s, s);
  lib_add := fun k v s => (fst s, firstn (fst s) ((k, v) :: snd s));
  contents := fun s => snd s |}.
Lemma small_lib_ok : lib_ok small_lib.
Proof.
  split; cbn.
  - intros n. destruct (Z.ltb_spec n 1); [lia|]. split; [lia|reflexivity].
  - intros k s. split; [apply incl_refl|]. unfold small_get. intros v. destruct (find _ (snd s)) as [[k' v']|] eqn:ef; [|discriminate]. intros [= <-].
    apply find_some in ef. cbn [fst snd] in *. destruct ef as [hi e]. destruct (list_eq_dec Z.eq_dec k' k); [subst; exact hi|discriminate].
  - intros k v [n l] x hx. cbn [fst snd] in *. rewrite <- (firstn_skipn n ((k, v) :: l)). apply in_or_app. left. exact hx.
Qed.
