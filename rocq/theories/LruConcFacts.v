(** Linearizability of LruCache: every concurrent execution shows the events of an execution in
    which the critical sections are atomic operations of the abstract cache. *)
From Verif Require Import Base Lru LruFacts LruConc.
From Coq Require Import Lia ZArith List Bool.

Section Facts.
Context {K V : Type}.
Variable keqb : K -> K -> bool.
Hypothesis keqb_eq : forall a b, keqb a b = true <-> a = b.
Variables (dk : K) (dv : V).
Variable cap : Z.
Hypothesis cap2 : 2 <= cap.
Variable makes : K -> V -> Prop.

Notation cstate := (cstate (K:=K) (V:=V)).
Notation astate := (astate (K:=K) (V:=V)).
Notation cstep := (cstep keqb dk dv cap makes).
Notation astep := (astep keqb cap makes).
Notation cexec := (cexec keqb dk dv cap makes).
Notation aexec := (aexec keqb cap makes).
Notation phase := (phase (K:=K) (V:=V)).

Lemma upd_same (ts : threads (K:=K) (V:=V)) t x : upd ts t x t = x.
Proof. unfold upd. rewrite Nat.eqb_refl. reflexivity. Qed.
Lemma upd_other (ts : threads (K:=K) (V:=V)) t x u : u <> t -> upd ts t x u = ts u.
Proof. intros H. unfold upd. destruct (Nat.eqb_spec u t); [contradiction|reflexivity]. Qed.

(** the thread holds the mutex *)
Definition holds_lock (p : phase) : Prop := match p with Inside _ _ | Leaving _ _ _ => True | _ => False end.
(** the abstract counterpart of a phase: sections take effect when their body runs *)
Definition abs_phase (p : phase) : phase :=
  match p with Inside o s => Waiting o s | Leaving o s r => after o s r | _ => p end.

Record inv (c : cstate) (a : astate) : Prop := mkInv {
  v_rep : rep cap (g_cache c) (a_cache a);
  v_lock : forall t, g_lock c = Some t <-> holds_lock (t_phase (g_threads c t));
  v_thr : forall t, t_phase (a_threads a t) = abs_phase (t_phase (g_threads c t)) /\
                    t_todo (a_threads a t) = t_todo (g_threads c t);
}.

Lemma body_ok s c l : rep cap c l -> exists c', body keqb dk dv cap s c = Ok (fst (a_body keqb cap s l), c') /\
  rep cap c' (snd (a_body keqb cap s l)).
Proof.
  intros HR. destruct s as [k|k v|]; cbn [body a_body].
  - apply (get_rep keqb keqb_eq cap); assumption.
  - destruct (insert_rep keqb keqb_eq cap cap2 c l k v HR) as (c' & E & R). exists c'. rewrite E. cbn. auto.
  - eexists. split; [reflexivity|]. apply clear_rep. assumption.
Qed.

Lemma thread_eq (ts : threads (K:=K) (V:=V)) t p r : t_phase (ts t) = p -> t_todo (ts t) = r -> ts t = mkThread p r.
Proof. destruct (ts t). cbn. congruence. Qed.

Ltac thr t0 := intros t1; destruct (Nat.eq_dec t1 t0) as [->|Hne]; [rewrite ?upd_same | rewrite ?upd_other by assumption].

Lemma after_free o s r : ~ holds_lock (after o s r).
Proof. destruct o, s, r; cbn; auto. Qed.
Lemma abs_after o s r : abs_phase (after o s r) = after o s r.
Proof. destruct o, s, r; reflexivity. Qed.

(** steps other than the body leave the abstract cache alone; the lock and the unlock are invisible *)
Lemma step_sim c e c' a : inv c a -> cstep c e c' ->
  (e = None /\ inv c' a) \/ exists a', astep a e a' /\ inv c' a'.
Proof.
  intros [R L T] Hs. destruct a as [al ats]. cbn [a_cache a_threads] in *. inversion Hs; subst; cbn [g_lock g_cache g_threads] in *.
  - right. destruct (T t) as [T1 T2]. rewrite H in T1, T2. cbn in T1, T2. eexists. split.
    + apply as_call. apply thread_eq; eassumption.
    + constructor; cbn; [assumption| |].
      * intros t1. rewrite L. destruct (Nat.eq_dec t1 t) as [->|]; [rewrite upd_same, H|rewrite upd_other by assumption]; cbn; tauto.
      * thr t; [cbn; auto|auto].
  - left. split; [reflexivity|]. destruct (T t) as [T1 T2]. rewrite H in T1, T2. cbn in T1, T2. constructor; cbn; [assumption| |].
    + thr t; cbn; [tauto|]. rewrite <- L. split; [congruence|discriminate].
    + thr t; [cbn; auto|auto].
  - right. destruct (T t) as [T1 T2]. rewrite H in T1, T2. cbn in T1, T2.
    destruct (body_ok s _ _ R) as (c1 & B1 & B2). rewrite H0 in B1. injection B1 as -> ->. eexists. split.
    + eapply as_atomic. apply thread_eq; eassumption.
    + constructor; cbn; [assumption| |].
      * intros t1. rewrite L. destruct (Nat.eq_dec t1 t) as [->|]; [rewrite upd_same, H|rewrite upd_other by assumption]; cbn; tauto.
      * thr t; [cbn; auto|auto].
  - left. split; [reflexivity|]. destruct (T t) as [T1 T2]. rewrite H in T1, T2. cbn in T1, T2. constructor; cbn; [assumption| |].
    + thr t; cbn; [pose proof (after_free o s r); split; [discriminate|tauto]|]. rewrite <- L. split; [discriminate|congruence].
    + thr t; [cbn; rewrite abs_after; auto|auto].
  - right. destruct (T t) as [T1 T2]. rewrite H in T1, T2. cbn in T1, T2. eexists. split.
    + eapply as_make; [apply thread_eq; [exact T1|exact T2]|exact H0].
    + constructor; cbn; [assumption| |].
      * intros t1. rewrite L. destruct (Nat.eq_dec t1 t) as [->|]; [rewrite upd_same, H|rewrite upd_other by assumption]; cbn; tauto.
      * thr t; [cbn; auto|auto].
  - right. destruct (T t) as [T1 T2]. rewrite H in T1, T2. cbn in T1, T2. eexists. split.
    + apply as_return. apply thread_eq; eassumption.
    + constructor; cbn; [assumption| |].
      * intros t1. rewrite L. destruct (Nat.eq_dec t1 t) as [->|]; [rewrite upd_same, H|rewrite upd_other by assumption]; cbn; tauto.
      * thr t; [cbn; auto|auto].
Qed.

Lemma init_inv ops : inv (c_init dk dv cap ops) (a_init ops).
Proof.
  constructor; cbn.
  - apply clear_rep. assumption.
  - intros t. split; [discriminate|tauto].
  - intros t. auto.
Qed.

Theorem exec_sim ops es c : cexec (c_init dk dv cap ops) es c -> exists a, aexec (a_init ops) es a /\ inv c a.
Proof.
  intros HE. remember (c_init dk dv cap ops) as x eqn:Ex. induction HE as [x|x y z es HE IH Hs|x y z es e HE IH Hs]; subst.
  - exists (a_init ops). split; [constructor|apply init_inv].
  - destruct (IH eq_refl) as (a & A1 & A2). destruct (step_sim _ _ _ _ A2 Hs) as [[_ I]|(a' & S1 & I)].
    + eauto.
    + exists a'. split; [eapply ax_tau; eassumption|assumption].
  - destruct (IH eq_refl) as (a & A1 & A2). destruct (step_sim _ _ _ _ A2 Hs) as [[E _]|(a' & S1 & I)]; [discriminate|].
    exists a'. split; [eapply ax_event; eassumption|assumption].
Qed.

(** no reachable section body has undefined behaviour *)
Theorem exec_safe ops es c t o s rest : cexec (c_init dk dv cap ops) es c ->
  g_threads c t = mkThread (Inside o s) rest -> exists r c', body keqb dk dv cap s (g_cache c) = Ok (r, c').
Proof.
  intros HE HT. destruct (exec_sim _ _ _ HE) as (a & _ & [R _ _]). destruct (body_ok s _ _ R) as (c' & B & _). eauto.
Qed.

(** at most one thread is inside a section *)
Theorem exec_mutex ops es c t u : cexec (c_init dk dv cap ops) es c ->
  holds_lock (t_phase (g_threads c t)) -> holds_lock (t_phase (g_threads c u)) -> t = u.
Proof.
  intros HE HT HU. destruct (exec_sim _ _ _ HE) as (a & _ & [_ L _]). apply L in HT, HU. congruence.
Qed.

(** an unfinished thread never blocks everything *)
Definition finished (th : thread (K:=K) (V:=V)) : Prop := t_phase th = Idle /\ t_todo th = [].
Theorem exec_progress ops es c t : (forall k, exists v, makes k v) ->
  cexec (c_init dk dv cap ops) es c -> ~ finished (g_threads c t) -> exists e c', cstep c e c'.
Proof.
  intros HM HE HF. destruct (exec_sim _ _ _ HE) as (a & _ & [R L _]). destruct c as [l c ts]. cbn in *.
  destruct l as [u|].
  - pose proof (proj1 (L u) eq_refl) as HU. destruct (ts u) as [p rest] eqn:E. cbn in HU. destruct p as [|o s|o s|o s r|k|o r]; cbn in HU; try tauto.
    + destruct (body_ok s _ _ R) as (c1 & B & _). do 2 eexists. eapply c_body; eassumption.
    + do 2 eexists. eapply c_unlock; eassumption.
  - destruct (ts t) as [p rest] eqn:E. destruct p as [|o s|o s|o s r|k|o r].
    + destruct rest; [exfalso; apply HF; split; reflexivity|]. do 2 eexists. eapply c_call; eassumption.
    + do 2 eexists. eapply c_lock; eassumption.
    + destruct (body_ok s _ _ R) as (c1 & B & _). do 2 eexists. eapply c_body; eassumption.
    + exfalso. pose proof (proj2 (L t)) as X. rewrite E in X. cbn in X. discriminate (X I).
    + destruct (HM k) as (v & Hv). do 2 eexists. eapply c_make; eassumption.
    + do 2 eexists. eapply c_return; eassumption.
Qed.

(** *** Memoisation: threads that only use GetOrInsert with one function of the key *)
Section Memo.
Variable f : K -> V.
Hypothesis makes_f : forall k v, makes k v -> v = f k.
(** the operations that respect [f], and what they must return *)
Definition respects (o : op (K:=K) (V:=V)) : Prop := match o with OPut k v => v = f k | _ => True end.
Definition answer (o : op (K:=K) (V:=V)) (r : option V) : Prop :=
  match o with
  | OGet k => r = None \/ r = Some (f k)
  | OPut k _ | OGoi k => r = Some (f k)
  | OClear => r = None
  end.
Definition memo_phase (p : phase) : Prop :=
  match p with
  | Idle | Making _ => True
  | Waiting (OGet k) s => s = SGet k
  | Waiting (OPut k _) s => s = SPut k (f k)
  | Waiting (OGoi k) s => s = SGet k \/ s = SPut k (f k)
  | Waiting OClear s => s = SClear
  | Returning o r => answer o r
  | _ => False
  end.
Record minv (a : astate) : Prop := mkMinv {
  mi_cache : forall k v, In (k, v) (a_cache a) -> v = f k;
  mi_thr : forall t, memo_phase (t_phase (a_threads a t)) /\ Forall respects (t_todo (a_threads a t));
}.
Lemma a_find_in k (l : list (K * V)) v : a_find keqb k l = Some v -> In (k, v) l.
Proof.
  induction l as [|[k' v'] l IH]; cbn; [discriminate|]. destruct (keqb k k') eqn:E; [|auto].
  apply keqb_eq in E. intros [= ->]. left. congruence.
Qed.
Lemma get_cache k l : (forall k v, In (k, v) l -> v = f k) ->
  (forall k' v, In (k', v) (snd (a_get keqb k l)) -> v = f k') /\ (fst (a_get keqb k l) = None \/ fst (a_get keqb k l) = Some (f k)).
Proof.
  intro C. unfold a_get. destruct (a_find keqb k l) as [v|] eqn:E; cbn [fst snd]; [|auto]. apply a_find_in in E. split.
  - intros k1 v1 [e|HI]; [injection e as <- <-; apply C; exact E|]. unfold a_remove in HI. apply filter_In in HI. apply C. tauto.
  - right. f_equal. apply C. exact E.
Qed.
Lemma put_cache k l : (forall k v, In (k, v) l -> v = f k) -> forall k' v, In (k', v) (a_put keqb cap k (f k) l) -> v = f k'.
Proof.
  intros C k1 v1. unfold a_put. destruct (a_find keqb k l) as [v|] eqn:E.
  - rewrite in_map_iff. intros ([k2 v2] & E2 & HI). cbn in E2. destruct (keqb k k2) eqn:EK; [|injection E2 as -> ->; apply C; exact HI].
    apply keqb_eq in EK. congruence.
  - intros HI. assert (HI' : In (k1, v1) ((k, f k) :: l)). { rewrite <- (firstn_skipn (Z.to_nat cap)). apply in_or_app. left. exact HI. }
    destruct HI' as [[= <- <-]|HI']; [reflexivity|apply C; exact HI'].
Qed.
Lemma minv_step a e a' : minv a -> astep a e a' -> minv a' /\
  (forall t o r, e = Some (Return t o r) -> answer o r).
Proof.
  intros [C T] Hs. inversion Hs; subst; cbn [a_cache a_threads] in *; destruct (T t) as [T1 T2]; rewrite H in T1, T2; cbn in T1, T2.
  - split; [|discriminate]. inversion T2; subst. constructor; cbn; [assumption|]. thr t; [|auto]. cbn. split; [|assumption].
    destruct o; cbn in *; try subst; auto.
  - split; [|discriminate].
    assert (Q : forall k v, In (k, v) (snd (a_body keqb cap s l)) -> v = f k).
    { destruct o as [k0|k0 v0|k0|]; cbn in T1; [subst s; apply (get_cache k0 l C) | subst s; apply put_cache; exact C | | subst s; intros ? ? []].
      destruct T1 as [-> | ->]; [apply (get_cache k0 l C) | apply put_cache; exact C]. }
    constructor; cbn [a_cache a_threads]; [exact Q|]. thr t; [|auto]. cbn [t_phase t_todo]. split; [|assumption].
    destruct o as [k0|k0 v0|k0|]; cbn in T1.
    + subst s. cbn [a_body after memo_phase answer]. apply (get_cache k0 l C).
    + subst s. cbn. reflexivity.
    + destruct T1 as [-> | ->].
      * cbn [a_body]. destruct (get_cache k0 l C) as [_ [-> | ->]]; cbn; auto.
      * cbn. reflexivity.
    + subst s. cbn. reflexivity.
  - split; [|discriminate]. constructor; cbn; [assumption|]. thr t; [|auto]. cbn. rewrite (makes_f _ _ H0). auto.
  - split.
    + constructor; cbn; [assumption|]. thr t; [|auto]. cbn. auto.
    + intros t1 o1 r1 [= -> -> ->]. exact T1.
Qed.
Theorem memo ops es c : (forall t, Forall respects (ops t)) -> cexec (c_init dk dv cap ops) es c ->
  forall t o r, In (Return t o r) es -> answer o r.
Proof.
  intros HG HE. destruct (exec_sim _ _ _ HE) as (a & A & _). clear HE.
  assert (X : minv a /\ forall t o r, In (Return t o r) es -> answer o r); [|tauto].
  remember (a_init ops) as x eqn:Ex. induction A as [x|x y z es HE IH Hs|x y z es e HE IH Hs]; subst.
  - split; [|cbn; tauto]. constructor; cbn; [tauto|]. intros t. split; [exact I|apply HG].
  - destruct (IH eq_refl) as [M P]. destruct (minv_step _ _ _ M Hs) as [M' _]. auto.
  - destruct (IH eq_refl) as [M P]. destruct (minv_step _ _ _ M Hs) as [M' Q]. split; [assumption|].
    intros t o r HI. apply in_app_or in HI. destruct HI as [HI|[HI|[]]]; [eauto|]. apply (Q t o r). congruence.
Qed.
End Memo.
End Facts.
