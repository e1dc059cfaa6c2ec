(** Threads sharing the free list: no data race, no buffer in two hands, and every thread sees its stacks as if it were alone. *)
From Verif Require Import Base StackPool StackConc ArithFacts MemFacts JumpFacts SimBase StackPoolFacts.
From Coq Require Import Lia ZArith List Bool.

Notation bufidx := (fun x : nat * (nat * Z) => fst (snd x)).
Record linv (h : list data) (live : list (nat * (nat * Z))) (s : values) : Prop := mkLinv {
  li_live : Forall2 (entry_ok h) live s;
  li_ids : NoDup (map fst s);
  li_own : NoDup (map bufidx live);
}.
Definition bufs_ok (h : list data) : Prop := Forall (fun d => zlen (d_buf d) = 1024) h.
Record keeps (p p' : pool) : Prop := mkKeeps {
  kp_own : owned p' = owned p;
  kp_len : length (p_heap p') = length (p_heap p);
  kp_rest : forall i, ~ In i (owned p) -> nth_error (p_heap p') i = nth_error (p_heap p) i;
  kp_bufs : bufs_ok (p_heap p) -> bufs_ok (p_heap p');
}.
Lemma keeps_refl p : keeps p p. Proof. split; auto. Qed.
Lemma keeps_trans a b c : keeps a b -> keeps b c -> keeps a c.
Proof. intros [A1 A2 A3 A4] [B1 B2 B3 B4]. split; [congruence|congruence| |auto]. intros i Hi. rewrite B3 by (rewrite A1; exact Hi). auto. Qed.

Lemma linv_bound h live s i : linv h live s -> In i (map bufidx live) -> (i < length h)%nat.
Proof.
  intros [F _ _] Hi. induction F as [|x y live s [_ (d & E & _)] F IH]; [destruct Hi|]. cbn [map In] in Hi. destruct Hi as [<-|Hi]; [|auto].
  apply nth_error_Some. congruence.
Qed.

Lemma lreplace p id i t l live1 live2 s1 s2 d' t' l' :
  linv (p_heap p) (p_live p) (s1 ++ (id, l) :: s2) -> p_live p = live1 ++ (id, (i, t)) :: live2 ->
  Forall2 (entry_ok (p_heap p)) live1 s1 -> Forall2 (entry_ok (p_heap p)) live2 s2 -> rep (d_buf d') t' l' ->
  let p' := mkPool (list_upd (p_heap p) i d') (p_free p) (update_id id (i, t') (p_live p)) in
  linv (p_heap p') (p_live p') (update_id id l' (s1 ++ (id, l) :: s2)) /\ keeps p p'.
Proof.
  intros I EL F1 F2 HR p'. pose proof (linv_bound _ _ _ i I ltac:(rewrite EL, map_app; apply in_or_app; right; left; reflexivity)) as Hi.
  destruct I as [F N O].
  rewrite map_app in N. cbn [map fst] in N. pose proof (NoDup_remove_2 _ _ _ N) as N2. rewrite in_app_iff in N2.
  pose proof (Forall2_fst _ _ _ F1) as G1. pose proof (Forall2_fst _ _ _ F2) as G2.
  rewrite EL, map_app in O. cbn [map fst snd] in O. pose proof (NoDup_remove_2 _ _ _ O) as O2. rewrite in_app_iff in O2.
  assert (EL' : update_id id (i, t') (p_live p) = live1 ++ (id, (i, t')) :: live2).
  { rewrite EL. apply update_id_split; rewrite ?G1, ?G2; tauto. }
  subst p'. cbn [p_heap p_live p_free]. rewrite EL'. rewrite update_id_split by tauto. split.
  - split; cbn [p_heap p_live].
    + apply Forall2_app; [apply Forall2_upd; tauto|]. constructor; [|apply Forall2_upd; tauto].
      split; [reflexivity|]. cbn [fst snd]. exists d'. rewrite list_upd_nth, Nat.eqb_refl by assumption. auto.
    + rewrite map_app. exact N.
    + rewrite map_app. cbn [map fst snd]. exact O.
  - split; unfold owned; cbn [p_heap p_live p_free].
    + rewrite EL, !map_app. reflexivity.
    + apply list_upd_len.
    + intros j Hj. rewrite list_upd_nth by assumption. destruct (Nat.eqb_spec j i) as [->|]; [|reflexivity].
      exfalso. apply Hj. rewrite EL, map_app. apply in_or_app. right. left. reflexivity.
    + unfold bufs_ok. rewrite !Forall_forall. intros B d Hd. apply In_nth_error in Hd. destruct Hd as (j & Hj). rewrite list_upd_nth in Hj by assumption.
      destruct (Nat.eqb j i); [injection Hj as <-; apply (rep_len _ _ _ HR)|]. apply B. eapply nth_error_In. exact Hj.
Qed.
Lemma lfind p s id l : linv (p_heap p) (p_live p) s -> lookup id s = Some l ->
  exists i t d live1 live2 s1 s2, stack_of p id = Ok (i, t) /\ deref p i = Ok d /\ nth_error (p_heap p) i = Some d /\ rep (d_buf d) t l /\ lookup id (p_live p) = Some (i, t) /\
    p_live p = live1 ++ (id, (i, t)) :: live2 /\ s = s1 ++ (id, l) :: s2 /\ Forall2 (entry_ok (p_heap p)) live1 s1 /\ Forall2 (entry_ok (p_heap p)) live2 s2.
Proof.
  intros I L. unfold stack_of. pose proof (lookup_Forall2 _ _ _ id (li_live _ _ _ I)) as X. rewrite L in X.
  destruct (lookup id (p_live p)) as [[i t]|] eqn:E; [|contradiction]. destruct X as (live1 & live2 & s1 & s2 & E1 & E2 & F1 & F2 & [_ (d & D1 & D2)]).
  cbn [fst snd] in D1, D2. exists i, t, d, live1, live2, s1, s2. unfold deref. rewrite D1. auto 10.
Qed.
Lemma lpush p s id v l : linv (p_heap p) (p_live p) s -> lookup id s = Some l -> zlen l < 1024 ->
  exists p', stack_push id v p = Ok p' /\ linv (p_heap p') (p_live p') (update_id id (v :: l) s) /\ keeps p p'.
Proof.
  intros I L Hl. destruct (lfind p s id l I L) as (i & t & d & live1 & live2 & s1 & s2 & E1 & E2 & E3 & R & _ & EL & -> & F1 & F2).
  unfold stack_push. rewrite E1. cbn [rbind]. rewrite E2. cbn [rbind].
  pose proof (rep_top _ _ _ R) as HT. pose proof (rep_len _ _ _ R) as HB. pose proof (zlen_nonneg l).
  destruct (Z.leb_spec 0 (t - 1)); [|lia]. destruct (Z.ltb_spec (t - 1) (zlen (d_buf d))); [|lia]. cbn [andb].
  eexists. split; [reflexivity|]. eapply lreplace; try eassumption. cbn [d_buf]. apply rep_push; assumption.
Qed.
Lemma lpushes els : forall p s id l, linv (p_heap p) (p_live p) s -> lookup id s = Some l -> zlen l + zlen els <= 1024 ->
  exists p', stack_pushes id els p = Ok p' /\ linv (p_heap p') (p_live p') (update_id id (rev els ++ l) s) /\ keeps p p'.
Proof.
  induction els as [|v els IH]; intros p s id l I L Hl; cbn [stack_pushes rev app].
  - exists p. rewrite (update_same id l s (li_ids _ _ _ I) L). split; [reflexivity|]. split; [exact I|apply keeps_refl].
  - rewrite zlen_cons in Hl. pose proof (zlen_nonneg els). destruct (lpush p s id v l I L ltac:(lia)) as (p1 & -> & I1 & K1). cbn [rbind].
    destruct (IH p1 _ id (v :: l) I1 (lookup_update _ _ _ _ L) ltac:(rewrite zlen_cons; lia)) as (p2 & -> & I2 & K2).
    exists p2. split; [reflexivity|]. split; [|exact (keeps_trans _ _ _ K1 K2)]. rewrite update_update in I2. rewrite <- app_assoc. exact I2.
Qed.
Lemma lassign p s id other l0 l : linv (p_heap p) (p_live p) s -> lookup id s = Some l0 -> lookup other s = Some l -> id <> other ->
  exists p', stack_assign id other p = Ok p' /\ linv (p_heap p') (p_live p') (update_id id l s) /\ keeps p p'.
Proof.
  intros I L1 L2 Hne. destruct (lfind p s other l I L2) as (j & u & d & _ & _ & _ & _ & A1 & A2 & _ & R & _).
  destruct (lfind p s id l0 I L1) as (i & t & d0 & live1 & live2 & s1 & s2 & E1 & E2 & E3 & _ & _ & EL & -> & F1 & F2).
  unfold stack_assign. rewrite E1. cbn [rbind]. rewrite A1. cbn [rbind]. rewrite A2. cbn [rbind].
  replace (stack_size - (stack_size - u)) with u by lia. eexists. split; [reflexivity|]. eapply lreplace; eassumption.
Qed.
Definition is_local (o : stack_op) : bool := match o with New _ | Copy _ _ | Init _ _ | Destroy _ => false | _ => true end.
Lemma local_step o p s r s' : linv (p_heap p) (p_live p) s -> is_local o = true -> spec_step o s = Some (r, s') ->
  exists p', pool_step o p = Ok (r, p') /\ linv (p_heap p') (p_live p') s' /\ keeps p p'.
Proof.
  intros I Ho Hs. destruct o as [id|id other|id other|id els|id v|id|id k|id k v|id|id other|id]; try discriminate Ho; cbn [spec_step] in Hs.
  - destruct (lookup id s) as [l0|] eqn:L; [|discriminate]. destruct (lookup other s) as [l|] eqn:L2; [|discriminate]. injection Hs as <- <-.
    cbn [pool_step]. destruct (Nat.eqb_spec id other) as [->|Hne].
    + exists p. rewrite (update_same other l s (li_ids _ _ _ I) L2). split; [reflexivity|]. split; [exact I|apply keeps_refl].
    + destruct (lassign p s id other l0 l I L L2 Hne) as (p' & -> & I' & K). cbn [rbind]. eauto.
  - destruct (lookup id s) as [l|] eqn:L; [|discriminate]. destruct (Z.ltb_spec (zlen l) 1024); [|discriminate]. injection Hs as <- <-.
    cbn [pool_step]. destruct (lpush p s id v l I L ltac:(lia)) as (p' & -> & I' & K). cbn [rbind]. eauto.
  - destruct (lookup id s) as [[|v l]|] eqn:L; [discriminate| |discriminate]. injection Hs as <- <-.
    destruct (lfind p s id (v :: l) I L) as (i & t & d & live1 & live2 & s1 & s2 & E1 & E2 & E3 & R & _ & EL & -> & F1 & F2).
    cbn [pool_step]. rewrite E1. cbn [rbind]. rewrite E2. cbn [rbind].
    destruct (rep_pop _ _ _ _ R) as [E0 HR]. unfold slot_read. rewrite E0. cbn [rbind]. eexists. split; [reflexivity|].
    pose proof (lreplace p id i t (v :: l) live1 live2 s1 s2 d (t + 1) l I EL F1 F2 HR) as X. cbv zeta in X. rewrite (list_upd_same _ _ _ E3) in X. exact X.
  - destruct (lookup id s) as [l|] eqn:L; [|discriminate]. destruct (znth l k) as [v|] eqn:Ev; [|discriminate]. injection Hs as <- <-.
    destruct (lfind p s id l I L) as (i & t & d & _ & _ & _ & _ & E1 & E2 & _ & R & _). cbn [pool_step]. rewrite E1. cbn [rbind]. rewrite E2. cbn [rbind].
    rewrite (slot_read_ok d t l k v R Ev). cbn [rbind]. exists p. split; [reflexivity|]. split; [exact I|apply keeps_refl].
  - destruct (lookup id s) as [l|] eqn:L; [|discriminate]. destruct (Z.leb_spec 0 k); [|discriminate]. destruct (Z.ltb_spec k (zlen l)); [|discriminate]. injection Hs as <- <-.
    destruct (lfind p s id l I L) as (i & t & d & live1 & live2 & s1 & s2 & E1 & E2 & E3 & R & Lp & EL & -> & F1 & F2).
    cbn [pool_step]. rewrite E1. cbn [rbind]. rewrite E2. cbn [rbind].
    pose proof (rep_top _ _ _ R) as HT. pose proof (rep_len _ _ _ R) as HB. pose proof (rep_top0 _ _ _ R) as Ht0.
    destruct (Z.leb_spec 0 (t + k)); [|lia]. destruct (Z.ltb_spec (t + k) (zlen (d_buf d))); [|lia]. cbn [andb].
    assert (Hk : 0 <= k < zlen l) by lia. eexists. split; [reflexivity|].
    pose proof (lreplace p id i t l live1 live2 s1 s2 (mkData (d_next d) (list_upd (d_buf d) (Z.to_nat (t + k)) (Some v))) t (list_upd l (Z.to_nat k) v)
        I EL F1 F2 (rep_put _ _ _ _ _ R Hk)) as X. cbv zeta in X. rewrite (update_same id (i, t) (p_live p)) in X; [exact X| |exact Lp].
    rewrite (Forall2_fst _ _ _ (li_live _ _ _ I)). exact (li_ids _ _ _ I).
  - destruct (lookup id s) as [l|] eqn:L; [|discriminate]. injection Hs as <- <-.
    destruct (lfind p s id l I L) as (i & t & d & _ & _ & _ & _ & E1 & E2 & _ & R & _). cbn [pool_step]. rewrite E1. cbn [rbind]. exists p.
    replace (stack_size - t) with (zlen l) by (pose proof (rep_top _ _ _ R); unfold stack_size; lia). split; [reflexivity|]. split; [exact I|apply keeps_refl].
  - destruct (lookup id s) as [l|] eqn:L; [|discriminate]. destruct (lookup other s) as [l'|] eqn:L'; [|discriminate]. injection Hs as <- <-.
    destruct (lfind p s id l I L) as (i & t & d & _ & _ & _ & _ & E1 & E2 & _ & R & _). destruct (lfind p s other l' I L') as (j & u & d' & _ & _ & _ & _ & E1' & E2' & _ & R' & _).
    cbn [pool_step]. rewrite E1. cbn [rbind]. rewrite E1'. cbn [rbind]. rewrite E2. cbn [rbind]. rewrite E2'. cbn [rbind].
    pose proof (rep_top _ _ _ R). pose proof (rep_top _ _ _ R'). exists p. destruct (Z.eqb_spec (stack_size - t) (stack_size - u)).
    + replace (Z.to_nat (stack_size - t)) with (length l) by (unfold stack_size, zlen in *; lia).
      rewrite (range_equal_ok d d' l l' t u); [|unfold stack_size, zlen in *; lia|apply (rep_at _ _ _ R)|apply (rep_at _ _ _ R')]. cbn [rbind].
      destruct (list_eq_dec Z.eq_dec l l'); (split; [reflexivity|]; split; [exact I|apply keeps_refl]).
    + destruct (list_eq_dec Z.eq_dec l l') as [->|]; [unfold stack_size in *; lia|]. split; [reflexivity|]. split; [exact I|apply keeps_refl].
Qed.

(** a live list and its values are unaffected by changes elsewhere *)
Lemma linv_frame h h' live s : linv h live s -> (forall i, In i (map bufidx live) -> nth_error h' i = nth_error h i) -> linv h' live s.
Proof.
  intros [F N O] E. split; [|assumption|assumption]. clear N O. induction F as [|x y live s [A (d & B & C)] F IH]; constructor.
  - split; [assumption|]. exists d. rewrite E by (left; reflexivity). auto.
  - apply IH. intros i Hi. apply E. right. exact Hi.
Qed.

(** ** The invariant *)
Definition pending (th : thread) : list stack_op :=
  match th_phase th with
  | GetLock c | GetRead c | GetAlloc c | GetNext c _ | GetSet c _ _ | GetUnlock c _ | Build c _ => op_of c :: th_todo th
  | _ => th_todo th
  end.
Definition owed (th : thread) : list (option Z) :=
  match th_phase th with RelLock _ | RelRead _ | RelNext _ _ | RelSet _ | RelUnlock => [None] | _ => [] end.
Definition tinv (h : list data) (th : thread) (total : list (option Z)) : Prop :=
  exists s rs s' pk, linv h (th_live th) s /\ spec_run (pending th) s = Some (rs, s', pk) /\ total = th_results th ++ owed th ++ rs.
Definition locking (ph : phase) : bool :=
  match ph with Ready | GetLock _ | Build _ _ | RelLock _ => false | _ => true end.
Definition knows (h : list data) (free : option nat) (th : thread) : Prop :=
  match th_phase th with
  | GetAlloc _ => free = None
  | GetNext _ i => free = Some i
  | GetSet _ i n => free = Some i /\ exists d, nth_error h i = Some d /\ d_next d = n
  | RelNext i f => free = f
  | RelSet i => exists d, nth_error h i = Some d /\ d_next d = free
  | _ => True
  end.
Record ginv (totals : nat -> list (option Z)) (g : state) (fl : list nat) : Prop := mkGinv {
  gi_chain : chain (c_heap g) (c_free g) fl;
  gi_free : NoDup fl;
  gi_bufs : bufs_ok (c_heap g);
  gi_held : forall t, NoDup (held (c_threads g t));
  gi_in : forall t i, In i (held (c_threads g t)) -> (i < length (c_heap g))%nat /\ ~ In i fl;
  gi_excl : forall t u i, In i (held (c_threads g t)) -> In i (held (c_threads g u)) -> t = u;
  gi_all : forall i, (i < length (c_heap g))%nat -> In i fl \/ exists t, In i (held (c_threads g t));
  gi_lock : forall t, locking (th_phase (c_threads g t)) = true <-> c_lock g = Some t;
  gi_knows : forall t, knows (c_heap g) (c_free g) (c_threads g t);
  gi_thread : forall t, tinv (c_heap g) (c_threads g t) (totals t);
}.
Lemma chain_bound h p l i : chain h p l -> In i l -> (i < length h)%nat.
Proof.
  revert p. induction l as [|j l IH]; intros p; cbn [chain In]; [tauto|]. intros (-> & d & E & C) [<-|Hi]; [|eauto]. apply nth_error_Some. congruence.
Qed.
Lemma set_same ts t x : set_thread ts t x t = x. Proof. unfold set_thread. rewrite Nat.eqb_refl. reflexivity. Qed.
Lemma set_other ts t x u : u <> t -> set_thread ts t x u = ts u. Proof. intros H. unfold set_thread. rewrite (proj2 (Nat.eqb_neq u t) H). reflexivity. Qed.

Lemma move totals g fl t th' l' h' f' fl' : ginv totals g fl ->
  let th := c_threads g t in let h := c_heap g in
  chain h' f' fl' -> NoDup fl' -> bufs_ok h' -> NoDup (held th') ->
  (length h <= length h')%nat ->
  (forall i, In i (held th') -> (i < length h')%nat /\ ~ In i fl') ->
  (forall i, In i fl' \/ In i (held th') -> In i fl \/ In i (held th) \/ (length h <= i)%nat) ->
  (forall i, (i < length h')%nat -> In i fl \/ In i (held th) \/ (length h <= i)%nat -> In i fl' \/ In i (held th')) ->
  (forall i, ~ In i (held th) -> (i < length h)%nat -> nth_error h' i = nth_error h i) ->
  (f' = c_free g \/ locking (th_phase th) = true) ->
  (l' = c_lock g /\ locking (th_phase th') = locking (th_phase th) \/
   c_lock g = None /\ l' = Some t /\ locking (th_phase th') = true \/
   locking (th_phase th) = true /\ l' = None /\ locking (th_phase th') = false) ->
  knows h' f' th' -> tinv h' th' (totals t) ->
  ginv totals (mkState l' h' f' (set_thread (c_threads g) t th')) fl'.
Proof.
  intros [C N B H1 H2 H3 H4 HL HK HT] th h C' N' B' H1' Hlen H2' Hin Hout Hheap Hf Hl HK' HT'.
  assert (Other : forall u i, u <> t -> In i (held (c_threads g u)) -> (i < length h)%nat /\ ~ In i fl /\ ~ In i (held th)).
  { intros u i Hu Hi. destruct (H2 u i Hi) as [A1 A2]. split; [exact A1|]. split; [exact A2|]. intros X. apply Hu. exact (H3 u t i Hi X). }
  assert (Foreign : forall u i, u <> t -> In i (held (c_threads g u)) -> ~ In i fl' /\ ~ In i (held th')).
  { intros u i Hu Hi. destruct (Other u i Hu Hi) as (A1 & A2 & A3).
    split; intros X; [destruct (Hin i (or_introl X)) as [Y|[Y|Y]]|destruct (Hin i (or_intror X)) as [Y|[Y|Y]]]; try contradiction; lia. }
  split; cbn [c_heap c_free c_lock c_threads]; try assumption.
  - intros u. destruct (Nat.eq_dec u t) as [->|Hu]; [rewrite set_same; assumption|rewrite set_other by assumption; apply H1].
  - intros u i. destruct (Nat.eq_dec u t) as [->|Hu]; [rewrite set_same; apply H2'|rewrite set_other by assumption]. intros Hi.
    destruct (Other u i Hu Hi) as (A1 & _). destruct (Foreign u i Hu Hi) as [A2 _]. split; [lia|exact A2].
  - intros u v i. destruct (Nat.eq_dec u t) as [->|Hu], (Nat.eq_dec v t) as [->|Hv]; rewrite ?set_same, ?(set_other _ _ _ _ Hu), ?(set_other _ _ _ _ Hv).
    + reflexivity.
    + intros X Y. destruct (Foreign v i Hv Y). contradiction.
    + intros X Y. destruct (Foreign u i Hu X). contradiction.
    + apply H3.
  - intros i Hi. assert (D : In i fl \/ In i (held th) \/ (length h <= i)%nat \/ exists u, u <> t /\ In i (held (c_threads g u))).
    { destruct (Nat.lt_ge_cases i (length h)) as [Hlt|]; [|auto]. destruct (H4 i Hlt) as [|[u Hu]]; [auto|].
      destruct (Nat.eq_dec u t) as [->|Hn]; [auto|]. right. right. right. exists u. auto. }
    destruct D as [D|[D|[D|(u & Hu & D)]]].
    4:{ right. exists u. rewrite set_other by assumption. exact D. }
    all: destruct (Hout i Hi ltac:(tauto)) as [X|X]; [left; exact X|right; exists t; rewrite set_same; exact X].
  - intros u. destruct (Nat.eq_dec u t) as [->|Hu].
    + rewrite set_same. destruct Hl as [(-> & ->)|[(E & -> & ->)|(E & -> & ->)]]; [apply HL|tauto|split; discriminate].
    + rewrite set_other by assumption. rewrite (HL u). destruct Hl as [(-> & _)|[(E & -> & _)|(E & -> & _)]]; [tauto| |].
      * rewrite E. split; [discriminate|congruence].
      * apply HL in E. rewrite E. split; [congruence|discriminate].
  - intros u. destruct (Nat.eq_dec u t) as [->|Hu]; [rewrite set_same; assumption|rewrite set_other by assumption].
    pose proof (HK u) as K. destruct Hf as [->|Hf].
    + unfold knows in *. pose proof (Other u) as O. unfold held in O. unfold in_flight in O. destruct (th_phase (c_threads g u)) eqn:Ep; try exact K.
      * destruct K as (E & d & D1 & D2). split; [exact E|]. exists d. split; [|exact D2]. rewrite Hheap; [exact D1| |apply nth_error_Some; fold h in D1; congruence].
        intros X. destruct (H2 t i X) as [_ Y]. apply Y. destruct fl as [|j fl0]; cbn [chain] in C; [congruence|]. destruct C as [C _]. left. congruence.
      * destruct K as (d & D1 & D2). exists d. split; [|exact D2]. rewrite Hheap; [exact D1| |apply nth_error_Some; fold h in D1; congruence].
        apply (O i Hu). left. reflexivity.
    + assert (X : locking (th_phase (c_threads g u)) = false).
      { destruct (locking (th_phase (c_threads g u))) eqn:E; [|reflexivity]. apply HL in E. apply HL in Hf. congruence. }
      unfold knows. destruct (th_phase (c_threads g u)); try discriminate X; exact I.
  - intros u. destruct (Nat.eq_dec u t) as [->|Hu]; [rewrite set_same; assumption|rewrite set_other by assumption].
    destruct (HT u) as (s & rs & s' & pk & L & R & T). exists s, rs, s', pk. split; [|auto]. eapply linv_frame; [exact L|].
    intros i Hi. destruct (Other u i Hu ltac:(unfold held; apply in_or_app; right; exact Hi)) as (A1 & _ & A3). auto.
Qed.
Lemma move_same totals g fl t th' l' : ginv totals g fl -> let th := c_threads g t in
  held th' = held th ->
  (l' = c_lock g /\ locking (th_phase th') = locking (th_phase th) \/
   c_lock g = None /\ l' = Some t /\ locking (th_phase th') = true \/
   locking (th_phase th) = true /\ l' = None /\ locking (th_phase th') = false) ->
  knows (c_heap g) (c_free g) th' -> tinv (c_heap g) th' (totals t) ->
  ginv totals (mkState l' (c_heap g) (c_free g) (set_thread (c_threads g) t th')) fl.
Proof.
  intros I th E Hl HK HT. pose proof I as [C N B H1 H2 H3 H4 HL _ _].
  apply (move totals g _ t _ _ _ _ _ I); auto; fold th; rewrite ?E; auto.
  - apply H1.
  - intros i Hi. apply (H2 t i Hi).
  - intros i [Hi|Hi]; auto.
  - intros i Hi [X|[X|X]]; auto. lia.
Qed.
Lemma spec_run_cons o os s rs s' pk : spec_run (o :: os) s = Some (rs, s', pk) ->
  exists r s1 rs1 pk1, spec_step o s = Some (r, s1) /\ spec_run os s1 = Some (rs1, s', pk1) /\ rs = r :: rs1.
Proof.
  cbn [spec_run]. destruct (spec_step o s) as [[r s1]|]; [|discriminate]. destruct (spec_run os s1) as [[[rs1 s2] pk1]|] eqn:E; [|discriminate].
  intros X. injection X as <- <- _. exists r, s1, rs1, pk1. auto.
Qed.
Lemma not_in_cons h (live : list (nat * (nat * Z))) s i id : linv h live s -> ~ In id (map fst s) -> ~ In i (map bufidx live) -> (exists d, nth_error h i = Some d /\ zlen (d_buf d) = 1024) ->
  linv h ((id, (i, stack_size)) :: live) ((id, []) :: s).
Proof.
  intros [F N O] Hid Hi (d & D1 & D2). split.
  - constructor; [|assumption]. split; [reflexivity|]. cbn [fst snd]. exists d. split; [exact D1|apply rep_fresh; exact D2].
  - cbn [map fst]. constructor; assumption.
  - cbn [map fst snd]. constructor; assumption.
Qed.

Ltac settle := cbn [locking th_phase knows held in_flight th_live app]; first [exact Logic.I | reflexivity | auto | tauto].
Theorem thread_step_ok totals g fl t : ginv totals g fl -> exists g' fl', thread_step t g = Ok g' /\ ginv totals g' fl'.
Proof.
  intros I. pose proof I as [C N B H1 H2 H3 H4 HL HK HT]. pose proof (HT t) as (s & rs & s' & pk & L & R & T).
  pose proof (HK t) as K. pose proof (HL t) as Lk. unfold thread_step. destruct (c_threads g t) as [ph todo live res] eqn:Et.
  unfold pending, owed, knows in *. cbn [th_phase th_todo th_live th_results] in *.
  assert (Hheld : held (c_threads g t) = held (mkThread ph todo live res)) by (rewrite Et; reflexivity).
  assert (Hph : th_phase (c_threads g t) = ph) by (rewrite Et; reflexivity).
  assert (HH : NoDup (held (mkThread ph todo live res))) by (rewrite <- Et; apply H1).
  assert (HI : forall i, In i (held (mkThread ph todo live res)) -> (i < length (c_heap g))%nat /\ ~ In i fl) by (intros i; rewrite <- Et; apply H2).
  destruct ph as [|c|c|c|c i|c i n|c i|c i|i|i|i f|i|].
  - (* Ready *)
    destruct todo as [|o rest]; [exists g, fl; auto|]. destruct (is_local o) eqn:Eo.
    + destruct (spec_run_cons _ _ _ _ _ _ R) as (r & s1 & rs1 & pk1 & R1 & R2 & ->).
      destruct (local_step o (mkPool (c_heap g) (c_free g) live) s r s1 L Eo R1) as (p' & E & L' & [K1 K2 K3 K4]). unfold owned in K1, K3. cbn [p_heap p_live] in *.
      assert (G : ginv totals (mkState (c_lock g) (p_heap p') (c_free g) (set_thread (c_threads g) t (mkThread Ready rest (p_live p') (res ++ [r])))) fl).
      { assert (Hfl : forall i, In i fl -> ~ In i (map bufidx live)). { intros i Hi X. apply (HI i); [exact X|exact Hi]. }
        assert (C' : chain (p_heap p') (c_free g) fl).
        { clear -C K3 Hfl. revert C. generalize (c_free g). induction fl as [|j fl IH]; intros p; cbn [chain]; [auto|]. intros (-> & d & D1 & D2).
          split; [reflexivity|]. exists d. rewrite K3 by (apply Hfl; left; reflexivity). split; [exact D1|]. apply IH; [|exact D2]. intros i Hi. apply Hfl. right. exact Hi. }
        apply (move totals g _ t _ _ _ _ _ I); auto; try lia; rewrite ?Hheld, ?Hph.
        - unfold held. cbn [in_flight th_phase th_live app]. rewrite K1. exact HH.
        - intros i Hi. rewrite K2. apply HI. unfold held in *. cbn [in_flight th_phase th_live app] in *. rewrite K1 in Hi. exact Hi.
        - intros i. unfold held. cbn [in_flight th_phase th_live app]. rewrite K1. tauto.
        - intros i Hi. unfold held. cbn [in_flight th_phase th_live app]. rewrite K1. intros [X|[X|X]]; auto. lia.
        - intros i Hi _. apply K3. exact Hi.
        - auto.
        - exists s1, rs1, s', pk1. unfold pending, owed. cbn [th_phase th_todo th_live th_results]. split; [exact L'|]. split; [exact R2|]. rewrite T. cbn [app]. rewrite <- app_assoc. reflexivity. }
      exists (mkState (c_lock g) (p_heap p') (c_free g) (set_thread (c_threads g) t (mkThread Ready rest (p_live p') (res ++ [r])))), fl. split; [|exact G].
      destruct o; try discriminate Eo; rewrite E; reflexivity.
    + destruct o as [id|id other|id other|id els|id v|id|id k|id k v|id|id other|id]; try discriminate Eo.
      1,2,3: eexists _, fl; (split; [reflexivity|]); apply (move_same totals g _ t _ _ I); auto; try exact Logic.I; rewrite ?Hheld, ?Hph; auto; first [exists s, rs, s', pk; solve [auto] | settle].
      destruct (spec_run_cons _ _ _ _ _ _ R) as (r & s1 & rs1 & pk1 & R1 & R2 & ->). cbn [spec_step] in R1.
      destruct (lookup id s) as [l|] eqn:Ls; [|discriminate]. injection R1 as <- <-.
      destruct (lfind (mkPool (c_heap g) (c_free g) live) s id l L Ls) as (i & tp & d & live1 & live2 & s1 & s2 & E1 & E2 & E3 & Rp & Lp & EL & -> & F1 & F2).
      rewrite E1. cbn [rbind]. cbn [p_live p_heap] in *. pose proof L as [LF LN LO].
      rewrite map_app in LN. cbn [map fst] in LN. pose proof (NoDup_remove_2 _ _ _ LN) as N2. rewrite in_app_iff in N2.
      pose proof (Forall2_fst _ _ _ F1) as G1. pose proof (Forall2_fst _ _ _ F2) as G2.
      assert (EL' : remove_id id live = live1 ++ live2). { rewrite EL. apply remove_id_split; rewrite ?G1, ?G2; tauto. }
      rewrite EL, map_app in LO. cbn [map fst snd] in LO.
      assert (P : forall j, In j (held (mkThread (RelLock i) rest (remove_id id live) res)) <-> In j (held (mkThread Ready (Destroy id :: rest) live res))).
      { intros j. unfold held. cbn [in_flight th_phase th_live app]. rewrite EL', EL, !map_app. cbn [map fst snd In]. rewrite !in_app_iff. cbn [In]. tauto. }
      eexists _, fl. split; [reflexivity|]. apply (move totals g _ t _ _ _ _ _ I); auto; rewrite ?Hheld, ?Hph.
      * unfold held. cbn [in_flight th_phase th_live app]. rewrite EL', map_app. constructor; [apply NoDup_remove_2 in LO; exact LO|apply NoDup_remove_1 in LO; exact LO].
      * intros j Hj. apply HI, P, Hj.
      * intros j. rewrite P. tauto.
      * intros j Hj. rewrite P. intros [X|[X|X]]; auto. lia.
      * settle.
      * exists (s1 ++ s2), rs1, s', pk1. unfold pending, owed. cbn [th_phase th_todo th_live th_results]. split; [|split; [|exact T]].
        -- split; [rewrite EL'; apply Forall2_app; assumption|rewrite map_app; eapply NoDup_remove_1; exact LN|rewrite EL', map_app; eapply NoDup_remove_1; exact LO].
        -- rewrite remove_id_split in R2 by tauto. exact R2.
  - (* GetLock *)
    destruct (c_lock g) eqn:El; [exists g, fl; auto|]. eexists _, fl. split; [reflexivity|].
    apply (move_same totals g _ t _ _ I); auto; rewrite ?Hheld, ?Hph; auto; first [exists s, rs, s', pk; solve [auto] | settle].
  - (* GetRead *)
    eexists _, fl. split; [reflexivity|]. destruct (c_free g) as [i|] eqn:Ef; rewrite <- Ef; apply (move_same totals g _ t _ _ I); auto; rewrite ?Hheld, ?Hph; auto; first [exists s, rs, s', pk; solve [auto] | settle].
  - (* GetAlloc *)
    destruct fl as [|j fl]; [|destruct C as [C _]; congruence]. eexists _, []. split; [reflexivity|].
    assert (Hnew : forall j, In j (held (mkThread (GetUnlock c (length (c_heap g))) todo live res)) <-> j = length (c_heap g) \/ In j (held (mkThread (GetAlloc c) todo live res))).
    { intros j. unfold held. cbn [in_flight th_phase th_live app In]. split; intros [X|X]; auto. }
    apply (move totals g _ t _ _ _ _ _ I); auto; rewrite ?Hheld, ?Hph, ?app_length; cbn [length]; try lia; auto.
    + unfold bufs_ok. apply Forall_app. split; [exact B|]. constructor; [|constructor]. cbn [d_buf]. unfold zlen. rewrite repeat_length. reflexivity.
    + unfold held in *. cbn [in_flight th_phase th_live app] in *. constructor; [|exact HH]. intros X. apply HI in X. lia.
    + intros j Hj. apply Hnew in Hj. destruct Hj as [->|Hj]; [split; [lia|intros []]|]. split; [apply HI in Hj; lia|intros []].
    + intros j [[]|Hj]. apply Hnew in Hj. destruct Hj as [->|Hj]; [right; right; lia|auto].
    + intros j Hj [[]|[X|X]]; right; apply Hnew; [auto|left; lia].
    + intros j _ Hj. apply nth_error_app1. exact Hj.
    + exact Logic.I.
    + exists s, rs, s', pk. cbn [th_live]. split; [|auto]. eapply linv_frame; [exact L|]. intros j Hj. apply nth_error_app1. exact (linv_bound _ _ _ j L Hj).
  - (* GetNext *)
    destruct fl as [|j fl]; cbn [chain] in C; [congruence|]. destruct C as (Cf & d & D1 & D2). assert (j = i) by congruence. subst j.
    unfold deref. cbn [p_heap]. rewrite D1. cbn [rbind]. eexists _, (i :: fl). split; [reflexivity|].
    apply (move_same totals g _ t _ _ I); auto; rewrite ?Hheld, ?Hph; auto; [|exists s, rs, s', pk; auto]. cbn [knows th_phase]. eauto.
  - (* GetSet *)
    destruct K as (Kf & d & D1 & D2). destruct fl as [|j fl]; cbn [chain] in C; [congruence|]. destruct C as (Cf & d' & D1' & C). assert (j = i) by congruence. subst j.
    rewrite D1 in D1'. injection D1' as <-. rewrite D2 in C. eexists _, fl. split; [reflexivity|]. inversion N as [|? ? N1 N2]; subst.
    assert (Hnew : forall j, In j (held (mkThread (GetUnlock c i) todo live res)) <-> j = i \/ In j (held (mkThread (GetSet c i (d_next d)) todo live res))).
    { intros j. unfold held. cbn [in_flight th_phase th_live app In]. split; intros [X|X]; auto. }
    apply (move totals g _ t _ _ _ _ _ I); auto; rewrite ?Hheld, ?Hph; auto.
    + unfold held in *. cbn [in_flight th_phase th_live app] in *. constructor; [|exact HH]. intros X. apply HI in X. apply X. left. reflexivity.
    + intros j Hj. apply Hnew in Hj. destruct Hj as [->|Hj]; [split; [apply nth_error_Some; congruence|exact N1]|]. apply HI in Hj. split; [tauto|]. intros X. apply Hj. right. exact X.
    + intros j [Hj|Hj]; [left; right; exact Hj|]. apply Hnew in Hj. destruct Hj as [->|Hj]; [left; left; reflexivity|auto].
    + intros j Hj [[X|X]|[X|X]]; [right; apply Hnew; auto|left; exact X|right; apply Hnew; auto|lia].
    + exact Logic.I.
    + exists s, rs, s', pk; auto.
  - (* GetUnlock *)
    eexists _, fl. split; [reflexivity|]. apply (move_same totals g _ t _ _ I); auto; rewrite ?Hheld, ?Hph; auto; first [exists s, rs, s', pk; solve [auto] | settle].
  - (* Build *)
    destruct (spec_run_cons _ _ _ _ _ _ R) as (r & s1 & rs1 & pk1 & R1 & R2 & ->).
    assert (Hi : ~ In i (map bufidx live)). { unfold held in HH. cbn [in_flight th_phase th_live app] in HH. inversion HH; assumption. }
    destruct (HI i ltac:(left; reflexivity)) as [Hib Hifl].
    assert (Hd : exists d, nth_error (c_heap g) i = Some d /\ zlen (d_buf d) = 1024).
    { destruct (nth_error (c_heap g) i) as [d|] eqn:Ed; [|apply nth_error_None in Ed; lia]. exists d. split; [reflexivity|]. unfold bufs_ok in B. rewrite Forall_forall in B. apply B. eapply nth_error_In. exact Ed. }
    assert (X : exists id p', r = None /\
      match c with CNew id => Ok (mkPool (c_heap g) (c_free g) ((id, (i, stack_size)) :: live))
        | CCopy id other => stack_assign id other (mkPool (c_heap g) (c_free g) ((id, (i, stack_size)) :: live))
        | CInit id els => stack_pushes id els (mkPool (c_heap g) (c_free g) ((id, (i, stack_size)) :: live)) end = Ok p' /\
      linv (p_heap p') (p_live p') s1 /\ keeps (mkPool (c_heap g) (c_free g) ((id, (i, stack_size)) :: live)) p').
    { destruct c as [id|id other|id els]; cbn [op_of spec_step] in R1.
      - destruct (lookup id s) eqn:E; [discriminate|]. injection R1 as <- <-. exists id. eexists. split; [reflexivity|]. split; [reflexivity|]. split; [|apply keeps_refl].
        cbn [p_heap p_live]. apply not_in_cons; auto. apply lookup_not_in. exact E.
      - destruct (lookup id s) eqn:E; [discriminate|]. destruct (lookup other s) as [l|] eqn:E2; [|discriminate]. injection R1 as <- <-.
        assert (L0 : linv (c_heap g) ((id, (i, stack_size)) :: live) ((id, []) :: s)) by (apply not_in_cons; auto; apply lookup_not_in; exact E).
        destruct (lassign (mkPool (c_heap g) (c_free g) ((id, (i, stack_size)) :: live)) ((id, []) :: s) id other [] l L0) as (p' & Ep & Lp & Kp).
        + cbn [lookup]. rewrite Nat.eqb_refl. reflexivity.
        + cbn [lookup]. destruct (Nat.eqb_spec other id); [congruence|exact E2].
        + congruence.
        + exists id, p'. split; [reflexivity|]. split; [exact Ep|]. split; [|exact Kp].
          pose proof (update_id_split id [] l [] s (fun h => h) (lookup_not_in _ _ E)) as EU. cbn [app] in EU. rewrite EU in Lp. exact Lp.
      - destruct (lookup id s) eqn:E; [discriminate|]. destruct (Z.leb_spec (zlen els) 1024); [|discriminate]. injection R1 as <- <-.
        assert (L0 : linv (c_heap g) ((id, (i, stack_size)) :: live) ((id, []) :: s)) by (apply not_in_cons; auto; apply lookup_not_in; exact E).
        destruct (lpushes els (mkPool (c_heap g) (c_free g) ((id, (i, stack_size)) :: live)) ((id, []) :: s) id [] L0) as (p' & Ep & Lp & Kp).
        + cbn [lookup]. rewrite Nat.eqb_refl. reflexivity.
        + unfold zlen at 1. cbn. lia.
        + exists id, p'. split; [reflexivity|]. split; [exact Ep|]. split; [|exact Kp].
          pose proof (update_id_split id [] (rev els ++ []) [] s (fun h => h) (lookup_not_in _ _ E)) as EU. cbn [app] in EU. rewrite EU, app_nil_r in Lp. exact Lp. }
    destruct X as (id & p' & -> & E & L' & [K1 K2 K3 K4]). unfold owned in K1, K3. cbn [p_heap p_live map fst snd] in *. rewrite E. cbn [rbind].
    eexists _, fl. split; [reflexivity|].
    assert (Heq : held (mkThread Ready todo (p_live p') (res ++ [None])) = held (mkThread (Build c i) todo live res)).
    { unfold held. cbn [in_flight th_phase th_live app]. exact K1. }
    assert (C' : chain (p_heap p') (c_free g) fl).
    { assert (Hfl : forall j, In j fl -> ~ In j (i :: map bufidx live)) by (intros j Hj X; apply (HI j); [exact X|exact Hj]).
      clear -C K3 Hfl. revert C. generalize (c_free g). induction fl as [|j fl IH]; intros p; cbn [chain]; [auto|]. intros (-> & d & D1 & D2).
      split; [reflexivity|]. exists d. rewrite K3 by (apply Hfl; left; reflexivity). split; [exact D1|]. apply IH; [|exact D2]. intros x Hx. apply Hfl. right. exact Hx. }
    apply (move totals g _ t _ _ _ _ _ I); auto; try lia; rewrite ?Hheld, ?Hph, ?Heq, ?K2; auto.
    + intros j [X|X]; auto.
    + intros j Hj [X|[X|X]]; auto. lia.
    + exists s1, rs1, s', pk1. unfold pending, owed. cbn [th_phase th_todo th_live th_results]. split; [exact L'|]. split; [exact R2|]. rewrite T. cbn [app]. rewrite <- app_assoc. reflexivity.
  - (* RelLock *)
    destruct (c_lock g) eqn:El; [exists g, fl; auto|]. eexists _, fl. split; [reflexivity|].
    apply (move_same totals g _ t _ _ I); auto; rewrite ?Hheld, ?Hph; auto; first [exists s, rs, s', pk; solve [auto] | settle].
  - (* RelRead *)
    eexists _, fl. split; [reflexivity|]. apply (move_same totals g _ t _ _ I); auto; rewrite ?Hheld, ?Hph; auto; first [exists s, rs, s', pk; solve [auto] | settle].
  - (* RelNext *)
    destruct (HI i ltac:(left; reflexivity)) as [Hib Hifl]. unfold deref. cbn [p_heap]. destruct (nth_error (c_heap g) i) as [d|] eqn:Ed; [|apply nth_error_None in Ed; lia].
    cbn [rbind]. eexists _, fl. split; [reflexivity|].
    assert (Hi : ~ In i (map bufidx live)). { unfold held in HH. cbn [in_flight th_phase th_live app] in HH. inversion HH; assumption. }
    apply (move totals g _ t _ _ _ _ _ I); auto; rewrite ?Hheld, ?Hph, ?list_upd_len; auto.
    + apply chain_upd; assumption.
    + unfold bufs_ok in *. rewrite Forall_forall in *. intros x Hx. apply In_nth_error in Hx. destruct Hx as (j & Hj). rewrite list_upd_nth in Hj by assumption.
      destruct (Nat.eqb j i); [injection Hj as <-; cbn [d_buf]; apply B; eapply nth_error_In; exact Ed|]. apply B. eapply nth_error_In. exact Hj.
    + intros j [X|X]; auto.
    + intros j Hj [X|[X|X]]; auto. lia.
    + intros j Hj _. rewrite list_upd_nth by assumption. destruct (Nat.eqb_spec j i) as [->|]; [|reflexivity]. exfalso. apply Hj. left. reflexivity.
    + cbn [knows th_phase]. eexists. rewrite list_upd_nth, Nat.eqb_refl by assumption. split; [reflexivity|]. cbn [d_next]. congruence.
    + exists s, rs, s', pk. cbn [th_live]. split; [|auto]. eapply linv_frame; [exact L|]. intros j Hj. rewrite list_upd_nth by assumption.
      destruct (Nat.eqb_spec j i) as [->|]; [contradiction|reflexivity].
  - (* RelSet *)
    destruct (HI i ltac:(left; reflexivity)) as [Hib Hifl]. destruct K as (d & D1 & D2). eexists _, (i :: fl). split; [reflexivity|].
    assert (Hnew : forall j, In j (held (mkThread (RelSet i) todo live res)) <-> j = i \/ In j (held (mkThread RelUnlock todo live res))).
    { intros j. unfold held. cbn [in_flight th_phase th_live app In]. split; intros [X|X]; auto. }
    apply (move totals g _ t _ _ _ _ _ I); auto; rewrite ?Hheld, ?Hph; auto.
    + cbn [chain]. split; [reflexivity|]. exists d. rewrite D2. auto.
    + constructor; assumption.
    + unfold held in *. cbn [in_flight th_phase th_live app] in *. inversion HH; assumption.
    + intros j Hj. destruct (HI j ltac:(apply Hnew; auto)) as [X Y]. split; [exact X|]. intros [<-|Z]; [|contradiction].
      unfold held in HH, Hj. cbn [in_flight th_phase th_live app] in HH, Hj. inversion HH; contradiction.
    + intros j [[<-|Hj]|Hj]; [right; left; left; reflexivity|auto|]. right. left. apply Hnew. auto.
    + intros j Hj [X|[X|X]]; [left; right; exact X| |lia]. apply Hnew in X. destruct X as [->|X]; [left; left; reflexivity|right; exact X].
    + exact Logic.I.
    + exists s, rs, s', pk; auto.
  - (* RelUnlock *)
    eexists _, fl. split; [reflexivity|]. apply (move_same totals g _ t _ _ I); auto; rewrite ?Hheld, ?Hph; auto.
    exists s, rs, s', pk. unfold pending, owed. cbn [th_phase th_todo th_live th_results]. split; [exact L|]. split; [exact R|]. rewrite T, <- app_assoc. reflexivity.
Qed.

(** ** All schedules *)
Lemma start_ok progs totals : (forall t, exists s pk, spec_run (progs t) [] = Some (totals t, s, pk)) -> ginv totals (start progs) [].
Proof.
  intros H. split; cbn [start c_heap c_free c_lock c_threads].
  - reflexivity.
  - constructor.
  - constructor.
  - intros t. constructor.
  - intros ? ? [].
  - intros ? ? ? [].
  - intros i Hi. cbn in Hi. lia.
  - intros t. cbn [locking th_phase]. split; discriminate.
  - intros t. exact Logic.I.
  - intros t. destruct (H t) as (s & pk & E). exists [], (totals t), s, pk. cbn [pending owed th_phase th_todo th_live th_results app]. split; [|auto].
    split; constructor.
Qed.
Lemma schedule_ok totals sched : forall g fl, ginv totals g fl -> exists g' fl', run_schedule sched g = Ok g' /\ ginv totals g' fl'.
Proof.
  induction sched as [|t sched IH]; intros g fl I; cbn [run_schedule]; [eauto|].
  destruct (thread_step_ok totals g fl t I) as (g1 & fl1 & -> & I1). cbn [rbind]. exact (IH g1 fl1 I1).
Qed.
Lemma buffers_held th id i : In i (buffers th id) -> In i (held th).
Proof.
  unfold buffers, held. destruct (lookup id (th_live th)) as [[j t]|] eqn:E; [|intros []]. intros [<-|[]]. apply in_or_app. right.
  clear -E. induction (th_live th) as [|[k [a b]] l IH]; cbn [lookup] in E; [discriminate|]. destruct (Nat.eqb id k); [injection E as <- <-; left; reflexivity|right; auto].
Qed.
Definition guarded (totals : nat -> list (option Z)) (g : state) (fl : list nat) (t : nat) (loc : location) : Prop :=
  match loc with
  | LFree => c_lock g = Some t
  | LNext i => In i (held (c_threads g t)) \/ (In i fl /\ c_lock g = Some t)
  | LBuffer i => In i (held (c_threads g t))
  end.
Lemma access_guarded totals g fl t loc w : ginv totals g fl -> In (loc, w) (accesses (c_threads g t)) -> guarded totals g fl t loc.
Proof.
  intros I. pose proof (gi_lock _ _ _ I t) as Lk. pose proof (gi_knows _ _ _ I t) as K. pose proof (buffers_held (c_threads g t)) as BH.
  unfold accesses, knows, guarded in *.
  assert (F : forall i, c_free g = Some i -> In i fl). { intros i E. pose proof (gi_chain _ _ _ I) as C. destruct fl as [|j fl']; cbn [chain] in C; [congruence|]. left. destruct C. congruence. }
  assert (FH : forall x, In x (in_flight (c_threads g t)) -> In x (held (c_threads g t))). { intros x Hx. unfold held. apply in_or_app. left. exact Hx. }
  unfold in_flight in FH.
  destruct (th_phase (c_threads g t)) as [|c|c|c|c i|c i n|c i|c i|i|i|i f|i|] eqn:Ep; cbn [locking] in Lk; cbn [In] in *; try tauto.
  - destruct (th_todo (c_threads g t)) as [|[id|id other|id other|id els|id v|id|id k|id k v|id|id other|id] rest]; cbn [In]; try tauto;
      rewrite ?in_app_iff, !in_map_iff; intros X;
      repeat match goal with H : _ \/ _ |- _ => destruct H as [H|H] end; destruct X as (x & E & X); injection E as <- <-; rewrite ?in_app_iff in X;
      repeat match goal with H : _ \/ _ |- _ => destruct H as [H|H] end; eauto.
  - intros [X|[]]. injection X as <- <-. tauto.
  - intros [X|[]]. injection X as <- <-. right. split; [auto|tauto].
  - intros [X|[]]. injection X as <- <-. tauto.
  - destruct c as [id|id other|id els]; cbn [In]; [tauto| |intros [X|[]]; injection X as <- <-; auto].
    rewrite in_app_iff, !in_map_iff. intros [X|[X|[(x & X & Y)|(x & X & Y)]]]; injection X as <- <-; eauto.
  - intros [X|[]]. injection X as <- <-. tauto.
  - intros [X|[]]. injection X as <- <-. auto.
  - intros [X|[]]. injection X as <- <-. tauto.
Qed.
Lemma no_race totals g fl t u : ginv totals g fl -> t <> u -> ~ race g t u.
Proof.
  intros I Hne (loc & w1 & w2 & A1 & A2 & _). apply (access_guarded totals g fl t loc w1 I) in A1. apply (access_guarded totals g fl u loc w2 I) in A2.
  unfold guarded in *. pose proof (gi_in _ _ _ I) as GI. pose proof (gi_excl _ _ _ I) as GE. destruct loc as [|i|i].
  - congruence.
  - destruct A1 as [A1|[A1 L1]], A2 as [A2|[A2 L2]]; [eauto| | |congruence]; [destruct (GI t i A1)|destruct (GI u i A2)]; contradiction.
  - eauto.
Qed.
Lemma allocates totals g fl t c : ginv totals g fl -> th_phase (c_threads g t) = GetAlloc c -> forall i, (i < length (c_heap g))%nat -> exists u, In i (held (c_threads g u)).
Proof.
  intros I E i Hi. pose proof (gi_knows _ _ _ I t) as K. unfold knows in K. rewrite E in K. destruct (gi_all _ _ _ I i Hi) as [X|X]; [|exact X].
  pose proof (gi_chain _ _ _ I) as C. destruct fl as [|j fl]; [destruct X|]. destruct C as [C _]. congruence.
Qed.

(** ** No deadlock *)
Lemma advances totals g fl t : ginv totals g fl -> ~ (th_phase (c_threads g t) = Ready /\ th_todo (c_threads g t) = []) ->
  (forall c, th_phase (c_threads g t) = GetLock c -> c_lock g = None) -> (forall i, th_phase (c_threads g t) = RelLock i -> c_lock g = None) ->
  exists g', thread_step t g = Ok g' /\ c_threads g' t <> c_threads g t.
Proof.
  intros I Hf HG HR. destruct (thread_step_ok totals g fl t I) as (g' & fl' & E & _). exists g'. split; [exact E|]. intros X.
  unfold thread_step in E. destruct (c_threads g t) as [ph todo live res] eqn:Et. cbn [th_phase th_todo th_live th_results] in *.
  destruct ph as [|c|c|c|c i|c i n|c i|c i|i|i|i f|i|]; try rewrite (HG _ eq_refl) in E; try rewrite (HR _ eq_refl) in E.
  1:{ destruct todo as [|o rest]; [tauto|].
      assert (Y : forall l h f x, Ok (mkState l h f (set_thread (c_threads g) t x)) = Ok g' -> th_todo x = rest -> False).
      { intros l h f x E1 E2. injection E1 as <-. cbn [c_threads] in X. rewrite set_same in X. rewrite X in E2. cbn [th_todo] in E2.
        apply (f_equal (@length _)) in E2. cbn [length] in E2. lia. }
      destruct o as [id|id other|id other|id els|id v|id|id k|id k v|id|id other|id];
        try (eapply Y; [exact E|reflexivity]);
        try (destruct (pool_step _ _) as [[r p']| |]; cbn [rbind] in E; [eapply Y; [exact E|reflexivity]|discriminate|discriminate]).
      destruct (stack_of _ _) as [[i tp]| |]; cbn [rbind] in E; [eapply Y; [exact E|reflexivity]|discriminate|discriminate]. }
  all: assert (Y : forall l h f x, Ok (mkState l h f (set_thread (c_threads g) t x)) = Ok g' -> th_phase x = th_phase (c_threads g t))
    by (intros l h ff x E1; injection E1 as <-; cbn [c_threads] in X; rewrite set_same in X; rewrite X, Et; reflexivity); rewrite Et in Y; cbn [th_phase] in Y.
  all: try (apply Y in E; cbn [th_phase] in E; discriminate).
  - apply Y in E. cbn [th_phase] in E. destruct (c_free g); discriminate.
  - destruct (deref _ _); cbn [rbind] in E; try discriminate. apply Y in E. cbn [th_phase] in E. discriminate.
  - match type of E with rbind ?m _ = _ => destruct m end; cbn [rbind] in E; try discriminate. apply Y in E. cbn [th_phase] in E. discriminate.
  - destruct (deref _ _); cbn [rbind] in E; try discriminate. apply Y in E. cbn [th_phase] in E. discriminate.
Qed.
Lemma no_deadlock totals g fl t : ginv totals g fl -> ~ (th_phase (c_threads g t) = Ready /\ th_todo (c_threads g t) = []) ->
  exists u g', thread_step u g = Ok g' /\ c_threads g' u <> c_threads g u.
Proof.
  intros I Hf. destruct (c_lock g) as [u|] eqn:El.
  - pose proof (proj2 (gi_lock _ _ _ I u) El) as Hu. exists u. apply (advances totals g fl u I).
    + intros [X _]. rewrite X in Hu. discriminate.
    + intros c X. rewrite X in Hu. discriminate.
    + intros c X. rewrite X in Hu. discriminate.
  - exists t. apply (advances totals g fl t I Hf); auto.
Qed.
Lemma results_prefix totals g fl t : ginv totals g fl -> exists rs, totals t = th_results (c_threads g t) ++ rs /\
  (th_phase (c_threads g t) = Ready -> th_todo (c_threads g t) = [] -> rs = []).
Proof.
  intros I. destruct (gi_thread _ _ _ I t) as (s & rs & s' & pk & _ & R & T). exists (owed (c_threads g t) ++ rs). split; [exact T|].
  intros E1 E2. unfold pending, owed in *. rewrite E1 in *. rewrite E2 in R. cbn in R. injection R as <- _ _. reflexivity.
Qed.

(** ** The statements of C25 and C26 *)
Lemma threads_alone progs rs sched : lawful progs rs ->
  exists g, run_schedule sched (start progs) = Ok g /\
    forall t, exists later, rs t = th_results (c_threads g t) ++ later /\ (finished (c_threads g t) -> later = []).
Proof.
  intros H. destruct (schedule_ok rs sched _ _ (start_ok progs rs H)) as (g & fl & E & I). exists g. split; [exact E|]. intros t.
  destruct (results_prefix rs g fl t I) as (l & A & B). exists l. split; [exact A|]. intros [X Y]. auto.
Qed.
Lemma threads_exclusive progs rs sched g : lawful progs rs -> run_schedule sched (start progs) = Ok g ->
  (forall t, NoDup (held (c_threads g t))) /\ (forall t u i, In i (held (c_threads g t)) -> In i (held (c_threads g u)) -> t = u) /\
  (forall t u, t <> u -> ~ race g t u).
Proof.
  intros H E'. destruct (schedule_ok rs sched _ _ (start_ok progs rs H)) as (g' & fl & E & I). rewrite E' in E. injection E as <-.
  split; [exact (gi_held _ _ _ I)|]. split; [exact (gi_excl _ _ _ I)|]. intros t u. apply (no_race rs g fl t u I).
Qed.
Lemma threads_progress progs rs sched g t : lawful progs rs -> run_schedule sched (start progs) = Ok g -> ~ finished (c_threads g t) ->
  exists u g', thread_step u g = Ok g' /\ c_threads g' u <> c_threads g u.
Proof.
  intros H E' Hf. destruct (schedule_ok rs sched _ _ (start_ok progs rs H)) as (g' & fl & E & I). rewrite E' in E. injection E as <-.
  exact (no_deadlock rs g fl t I Hf).
Qed.
Lemma threads_not_leaked progs rs sched g : lawful progs rs -> run_schedule sched (start progs) = Ok g ->
  (exists fl, chain (c_heap g) (c_free g) fl /\ NoDup fl /\ forall i, (i < length (c_heap g))%nat -> In i fl <-> forall t, ~ In i (held (c_threads g t))) /\
  (forall t c, th_phase (c_threads g t) = GetAlloc c -> forall i, (i < length (c_heap g))%nat -> exists u, In i (held (c_threads g u))).
Proof.
  intros H E'. destruct (schedule_ok rs sched _ _ (start_ok progs rs H)) as (g' & fl & E & I). rewrite E' in E. injection E as <-. split.
  - exists fl. split; [exact (gi_chain _ _ _ I)|]. split; [exact (gi_free _ _ _ I)|]. intros i Hi. split.
    + intros X t Y. destruct (gi_in _ _ _ I t i Y). contradiction.
    + intros X. destruct (gi_all _ _ _ I i Hi) as [Y|[t Y]]; [exact Y|]. destruct (X t Y).
  - intros t c X. exact (allocates rs g fl t c I X).
Qed.
