(** Stacks sharing the free list behave as independent values; buffers are never shared or leaked. *)
From Verif Require Import Base StackPool ArithFacts MemFacts JumpFacts SimBase.
From Coq Require Import Lia ZArith List Bool Permutation.

(** the free list *)
Fixpoint chain (h : list data) (p : option nat) (l : list nat) : Prop :=
  match l with
  | [] => p = None
  | i :: l' => p = Some i /\ exists d, nth_error h i = Some d /\ chain h (d_next d) l'
  end.

Record entry_ok (h : list data) (x : nat * (nat * Z)) (y : nat * list Z) : Prop := mkEntryOk {
  eo_id : fst x = fst y;
  eo_data : exists d, nth_error h (fst (snd x)) = Some d /\ rep (d_buf d) (snd (snd x)) (snd y);
}.

Definition owned (p : pool) : list nat := map (fun x => fst (snd x)) (p_live p).

Record pinv (p : pool) (s : values) (fl : list nat) : Prop := mkPinv {
  pi_chain : chain (p_heap p) (p_free p) fl;
  pi_perm : Permutation (fl ++ owned p) (seq 0 (length (p_heap p)));
  pi_live : Forall2 (entry_ok (p_heap p)) (p_live p) s;
  pi_ids : NoDup (map fst s);
  pi_bufs : Forall (fun d => zlen (d_buf d) = 1024) (p_heap p);
}.

Lemma list_upd_nth {A} (l : list A) i x j : (i < length l)%nat ->
  nth_error (list_upd l i x) j = if Nat.eqb j i then Some x else nth_error l j.
Proof.
  revert i j. induction l as [|a l IH]; intros i j H; [cbn in H; lia|].
  destruct i, j; cbn [list_upd nth_error Nat.eqb]; try reflexivity. apply IH. cbn in H. lia.
Qed.
Lemma list_upd_len {A} (l : list A) i x : length (list_upd l i x) = length l.
Proof. revert i. induction l; intros [|i]; cbn; auto. Qed.

Lemma chain_upd h p l i d : chain h p l -> ~ In i l -> (i < length h)%nat -> chain (list_upd h i d) p l.
Proof.
  revert p. induction l as [|j l IH]; intros p; cbn [chain]; [auto|]. intros (-> & d' & H1 & H2) Hn Hi.
  split; [reflexivity|]. exists d'. rewrite list_upd_nth by assumption. cbn in Hn.
  destruct (Nat.eqb_spec j i); [exfalso; apply Hn; auto|]. split; [assumption|]. apply IH; auto.
Qed.
Lemma chain_app h p l d : chain h p l -> chain (h ++ [d]) p l.
Proof.
  revert p. induction l as [|j l IH]; intros p; cbn [chain]; [auto|]. intros (-> & d' & H1 & H2).
  split; [reflexivity|]. exists d'. split; [rewrite nth_error_app1; [assumption|apply nth_error_Some; congruence]|]. auto.
Qed.

Lemma lookup_Forall2 h live (s : values) id : Forall2 (entry_ok h) live s ->
  match lookup id live, lookup id s with
  | Some x, Some l => exists live1 live2 s1 s2, live = live1 ++ (id, x) :: live2 /\ s = s1 ++ (id, l) :: s2 /\
      Forall2 (entry_ok h) live1 s1 /\ Forall2 (entry_ok h) live2 s2 /\ entry_ok h (id, x) (id, l)
  | None, None => ~ In id (map fst s)
  | _, _ => False
  end.
Proof.
  induction 1 as [|[i x] [j l] live s [E1 E2] HF IH]; cbn [lookup]; [cbn; tauto|]. cbn [fst snd] in *. subst j.
  destruct (Nat.eqb_spec id i) as [->|Hne].
  - exists [], live, [], s. repeat split; auto.
  - destruct (lookup id live) as [x'|], (lookup id s) as [l'|]; try tauto.
    + destruct IH as (live1 & live2 & s1 & s2 & -> & -> & F1 & F2 & F3).
      exists ((i, x) :: live1), live2, ((i, l) :: s1), s2. repeat split; auto; try (apply F3). constructor; [split; auto|assumption].
    + cbn [map fst In]. intros [|]; [congruence|tauto].
Qed.

Lemma update_id_split {A} id (x y : A) l1 l2 : ~ In id (map fst l1) -> ~ In id (map fst l2) ->
  update_id id y (l1 ++ (id, x) :: l2) = l1 ++ (id, y) :: l2.
Proof.
  assert (X : forall l : list (nat * A), ~ In id (map fst l) -> update_id id y l = l).
  { induction l as [|[i a] l IH]; cbn; [reflexivity|]. intros H. rewrite (proj2 (Nat.eqb_neq id i)) by (intros ->; apply H; auto).
    f_equal. apply IH. tauto. }
  intros H1 H2. unfold update_id in *. rewrite map_app. cbn [map fst]. rewrite Nat.eqb_refl, !X by assumption. reflexivity.
Qed.
Lemma remove_id_split {A} id (x : A) l1 l2 : ~ In id (map fst l1) -> ~ In id (map fst l2) ->
  remove_id id (l1 ++ (id, x) :: l2) = l1 ++ l2.
Proof.
  assert (X : forall l : list (nat * A), ~ In id (map fst l) -> remove_id id l = l).
  { induction l as [|[i a] l IH]; cbn; [reflexivity|]. intros H. rewrite (proj2 (Nat.eqb_neq id i)) by (intros ->; apply H; auto).
    cbn. f_equal. apply IH. tauto. }
  intros H1 H2. unfold remove_id in *. rewrite filter_app. cbn [filter fst]. rewrite Nat.eqb_refl. cbn [negb]. rewrite !X by assumption. reflexivity.
Qed.

Lemma Forall2_fst h live (s : values) : Forall2 (entry_ok h) live s -> map fst live = map fst s.
Proof. induction 1 as [|x y live s [E _] HF IH]; cbn; [reflexivity|]. congruence. Qed.

Lemma entry_upd h x y i d : entry_ok h x y -> fst (snd x) <> i -> (i < length h)%nat -> entry_ok (list_upd h i d) x y.
Proof.
  intros [E1 (d' & E2 & E3)] Hn Hi. split; [assumption|]. exists d'. rewrite list_upd_nth by assumption.
  destruct (Nat.eqb_spec (fst (snd x)) i); [contradiction|]. auto.
Qed.
Lemma Forall2_upd h live (s : values) i d : Forall2 (entry_ok h) live s -> ~ In i (map (fun x => fst (snd x)) live) ->
  (i < length h)%nat -> Forall2 (entry_ok (list_upd h i d)) live s.
Proof.
  induction 1 as [|x y live s E HF IH]; cbn [map In]; intros Hn Hi; constructor; [|tauto].
  apply entry_upd; auto.
Qed.
Lemma entry_app h x y d : entry_ok h x y -> entry_ok (h ++ [d]) x y.
Proof.
  intros [E1 (d' & E2 & E3)]. split; [assumption|]. exists d'. rewrite nth_error_app1; [auto|]. apply nth_error_Some. congruence.
Qed.

Lemma perm_nodup p s fl : pinv p s fl -> NoDup (fl ++ owned p).
Proof. intros [_ HP _ _ _]. eapply Permutation_NoDup; [apply Permutation_sym; exact HP|apply seq_NoDup]. Qed.
Lemma perm_in p s fl i : pinv p s fl -> In i (fl ++ owned p) <-> (i < length (p_heap p))%nat.
Proof.
  intros [_ HP _ _ _]. split; intros H.
  - apply (Permutation_in _ HP) in H. apply in_seq in H. lia.
  - apply (Permutation_in _ (Permutation_sym HP)). apply in_seq. lia.
Qed.
Lemma sizes p s fl : pinv p s fl -> (length (p_heap p) = length fl + length s)%nat.
Proof.
  intros [_ HP HF _ _]. apply Permutation_length in HP. rewrite app_length, seq_length in HP. unfold owned in HP. rewrite map_length in HP.
  assert (length (p_live p) = length s) by (clear -HF; induction HF; cbn; congruence). lia.
Qed.

Lemma rep_fresh buf : zlen buf = 1024 -> rep buf stack_size [].
Proof. intros H. split; [assumption|unfold stack_size; lia|reflexivity|]. intros i v Hv. rewrite znth_nil in Hv. discriminate. Qed.

(** constructing a stack *)
Lemma new_ok p s fl id : pinv p s fl -> ~ In id (map fst s) ->
  exists p' fl', stack_new id p = Ok p' /\ pinv p' ((id, []) :: s) fl' /\
    length (p_heap p') = Nat.max (length (p_heap p)) (Datatypes.S (length s)).
Proof.
  intros I Hid. pose proof (perm_nodup _ _ _ I) as ND. pose proof (sizes _ _ _ I) as SZ.
  pose proof (fun i => perm_in _ _ _ i I) as PI. destruct I as [C P F N B].
  unfold stack_new, data_get. destruct fl as [|i fl]; cbn [chain] in C.
  - rewrite C. cbn [rbind p_heap p_free p_live]. eexists _, []. split; [reflexivity|]. cbn [p_heap p_free p_live]. split.
    + split; cbn [p_heap p_free p_live chain]; [reflexivity| | | |].
      * unfold owned in *. cbn [map p_live fst snd app] in *. rewrite app_length. cbn [length].
        rewrite Nat.add_1_r, seq_S. cbn [Nat.add]. apply Permutation_cons_app. rewrite app_nil_r. exact P.
      * constructor.
        -- split; [reflexivity|]. cbn [fst snd]. eexists. split; [rewrite nth_error_app2, Nat.sub_diag by lia; reflexivity|].
           apply rep_fresh. cbn [d_buf]. unfold zlen. rewrite repeat_length. reflexivity.
        -- clear -F. induction F; constructor; [apply entry_app; assumption|assumption].
      * cbn [map fst]. constructor; assumption.
      * apply Forall_app. split; [assumption|]. constructor; [|constructor]. cbn [d_buf]. unfold zlen. rewrite repeat_length. reflexivity.
    + rewrite app_length. cbn [length] in *. lia.
  - destruct C as (-> & d & C1 & C2). unfold deref. rewrite C1. cbn [rbind p_heap p_free p_live]. eexists _, fl. split; [reflexivity|]. split.
    + split; cbn [p_heap p_free p_live]; [assumption| | | |assumption].
      * unfold owned in *. cbn [map p_live fst snd]. eapply Permutation_trans; [|exact P]. cbn [app].
        apply Permutation_sym. apply Permutation_middle.
      * constructor; [|assumption]. split; [reflexivity|]. cbn [fst snd]. exists d. split; [assumption|]. apply rep_fresh.
        rewrite Forall_forall in B. apply B. eapply nth_error_In. exact C1.
      * cbn [map fst]. constructor; assumption.
    + cbn [p_heap length] in *. lia.
Qed.

(** replacing the buffer and top of a live stack *)
Lemma replace_ok p fl id i t l live1 live2 s1 s2 d' t' l' :
  pinv p (s1 ++ (id, l) :: s2) fl -> p_live p = live1 ++ (id, (i, t)) :: live2 ->
  Forall2 (entry_ok (p_heap p)) live1 s1 -> Forall2 (entry_ok (p_heap p)) live2 s2 -> rep (d_buf d') t' l' ->
  pinv (mkPool (list_upd (p_heap p) i d') (p_free p) (update_id id (i, t') (p_live p))) (update_id id l' (s1 ++ (id, l) :: s2)) fl.
Proof.
  intros I EL F1 F2 HR. pose proof (perm_nodup _ _ _ I) as ND. pose proof (fun i => perm_in _ _ _ i I) as PI. destruct I as [C P F N B].
  assert (Hi : (i < length (p_heap p))%nat). { apply PI. apply in_or_app. right. unfold owned. rewrite EL, map_app. apply in_or_app. right. left. reflexivity. }
  rewrite map_app in N. cbn [map fst] in N. pose proof (NoDup_remove_2 _ _ _ N) as N2. rewrite in_app_iff in N2.
  pose proof (Forall2_fst _ _ _ F1) as G1. pose proof (Forall2_fst _ _ _ F2) as G2.
  rewrite EL, !update_id_split; try (rewrite ?G1, ?G2; tauto).
  unfold owned in *. rewrite EL, map_app in ND, P. cbn [map fst snd] in ND, P.
  rewrite app_assoc in ND. pose proof (NoDup_remove_2 _ _ _ ND) as N3. rewrite !in_app_iff in N3.
  split; cbn [p_heap p_free p_live].
  - apply chain_upd; tauto.
  - unfold owned. cbn [p_live]. rewrite list_upd_len, map_app. cbn [map fst snd]. exact P.
  - apply Forall2_app; [apply Forall2_upd; tauto|]. constructor; [|apply Forall2_upd; tauto].
    split; [reflexivity|]. cbn [fst snd]. exists d'. rewrite list_upd_nth, Nat.eqb_refl by assumption. auto.
  - rewrite map_app. exact N.
  - rewrite Forall_forall in *. intros d Hd. apply In_nth_error in Hd. destruct Hd as (j & Hj). rewrite list_upd_nth in Hj by assumption.
    destruct (Nat.eqb j i); [injection Hj as <-; apply (rep_len _ _ _ HR)|]. apply B. eapply nth_error_In. exact Hj.
Qed.
Lemma list_upd_same {A} (l : list A) i d : nth_error l i = Some d -> list_upd l i d = l.
Proof. revert i. induction l as [|a l IH]; intros [|i]; cbn; try congruence. intros H. f_equal. auto. Qed.

Lemma assign_ok p s fl id other l0 l : pinv p s fl -> lookup id s = Some l0 -> lookup other s = Some l -> id <> other ->
  exists p', stack_assign id other p = Ok p' /\ pinv p' (update_id id l s) fl /\ length (p_heap p') = length (p_heap p).
Proof.
  intros I L1 L2 Hne. unfold stack_assign, stack_of. pose proof (pi_live _ _ _ I) as F.
  pose proof (lookup_Forall2 _ _ _ other F) as X2. rewrite L2 in X2. destruct (lookup other (p_live p)) as [[j t]|] eqn:E2; [|contradiction].
  destruct X2 as (_ & _ & _ & _ & _ & _ & _ & _ & [_ (d & D1 & D2)]). cbn [fst snd] in D1, D2.
  pose proof (lookup_Forall2 _ _ _ id F) as X1. rewrite L1 in X1. destruct (lookup id (p_live p)) as [[i t0]|] eqn:E1; [|contradiction].
  destruct X1 as (live1 & live2 & s1 & s2 & EL & -> & F1 & F2 & _). cbn [rbind]. unfold deref. rewrite D1. cbn [rbind].
  replace (stack_size - (stack_size - t)) with t by lia.
  eexists. split; [reflexivity|]. split; [eapply replace_ok; eassumption|]. cbn [p_heap]. apply list_upd_len.
Qed.

Lemma rep_push buf t l v : rep buf t l -> 0 <= t - 1 -> rep (list_upd buf (Z.to_nat (t - 1)) (Some v)) (t - 1) (v :: l).
Proof.
  intros [R1 R2 R3 R4] Ht. split; [rewrite list_upd_zlen; assumption|assumption|rewrite zlen_cons; lia|].
  intros i x Hx. pose proof (zlen_nonneg l). rewrite znth_list_upd by lia. pose proof (znth_in _ _ _ Hx) as Hi. rewrite zlen_cons in Hi.
  destruct (Z.eqb_spec (t - 1 + i) (t - 1)).
  - assert (i = 0) by lia. subst i. cbn in Hx. congruence.
  - replace (t - 1 + i) with (t + (i - 1)) by lia. apply R4. rewrite <- Hx. unfold znth. destruct (Z.ltb_spec (i - 1) 0), (Z.ltb_spec i 0); try lia.
    replace (Z.to_nat i) with (Datatypes.S (Z.to_nat (i - 1))) by lia. reflexivity.
Qed.
Lemma rep_pop buf t v l : rep buf t (v :: l) -> znth buf t = Some (Some v) /\ rep buf (t + 1) l.
Proof.
  intros [R1 R2 R3 R4]. split; [replace t with (t + 0) by lia; apply R4; reflexivity|].
  rewrite zlen_cons in R3. split; [assumption|lia|lia|]. intros i x Hx. pose proof (znth_in _ _ _ Hx).
  replace (t + 1 + i) with (t + (i + 1)) by lia. apply R4. rewrite <- Hx. unfold znth. destruct (Z.ltb_spec (i + 1) 0), (Z.ltb_spec i 0); try lia.
  replace (Z.to_nat (i + 1)) with (Datatypes.S (Z.to_nat i)) by lia. reflexivity.
Qed.

Lemma destroy_ok p s fl id l : pinv p s fl -> lookup id s = Some l ->
  exists r p' fl', pool_step (Destroy id) p = Ok (r, p') /\ r = None /\ pinv p' (remove_id id s) fl' /\ length (p_heap p') = length (p_heap p).
Proof.
  intros I L. pose proof (perm_nodup _ _ _ I) as ND. pose proof (fun i => perm_in _ _ _ i I) as PI.
  pose proof (lookup_Forall2 _ _ _ id (pi_live _ _ _ I)) as X. rewrite L in X. cbn [pool_step]. unfold stack_of.
  destruct (lookup id (p_live p)) as [[i t]|]; [|contradiction]. destruct X as (live1 & live2 & s1 & s2 & EL & -> & F1 & F2 & [_ (d & D1 & D2)]).
  cbn [fst snd] in D1, D2. cbn [rbind]. unfold data_release, deref. rewrite D1. cbn [rbind p_heap p_free p_live].
  eexists _, _, (i :: fl). split; [reflexivity|]. split; [reflexivity|]. cbn [p_heap]. split; [|apply list_upd_len].
  destruct I as [C P F N B].
  assert (Hi : (i < length (p_heap p))%nat) by (apply nth_error_Some; congruence).
  rewrite map_app in N. cbn [map fst] in N. pose proof (NoDup_remove_2 _ _ _ N) as N2. rewrite in_app_iff in N2.
  pose proof (Forall2_fst _ _ _ F1) as G1. pose proof (Forall2_fst _ _ _ F2) as G2.
  rewrite EL, !remove_id_split; try (rewrite ?G1, ?G2; tauto).
  unfold owned in *. rewrite EL, map_app in ND, P. cbn [map fst snd] in ND, P.
  rewrite app_assoc in ND. pose proof (NoDup_remove_2 _ _ _ ND) as N3. rewrite !in_app_iff in N3.
  split; cbn [p_heap p_free p_live].
  - cbn [chain]. split; [reflexivity|]. eexists. rewrite list_upd_nth, Nat.eqb_refl by assumption. split; [reflexivity|]. cbn [d_next].
    apply chain_upd; tauto.
  - unfold owned. cbn [p_live]. rewrite list_upd_len, map_app. eapply Permutation_trans; [|exact P]. cbn [app].
    rewrite !app_assoc. apply Permutation_middle.
  - apply Forall2_app; apply Forall2_upd; tauto.
  - rewrite map_app. eapply NoDup_remove_1. exact N.
  - rewrite Forall_forall in *. intros d' Hd. apply In_nth_error in Hd. destruct Hd as (j & Hj). rewrite list_upd_nth in Hj by assumption.
    destruct (Nat.eqb j i); [injection Hj as <-; apply (rep_len _ _ _ D2)|]. apply B. eapply nth_error_In. exact Hj.
Qed.

Lemma lookup_not_in {A} id (s : list (nat * A)) : lookup id s = None -> ~ In id (map fst s).
Proof.
  induction s as [|[i x] s IH]; cbn; [tauto|]. destruct (Nat.eqb_spec id i); [discriminate|]. intros H [|]; [congruence|]. apply IH; assumption.
Qed.
Lemma update_id_len {A} id (x : A) l : length (update_id id x l) = length l.
Proof. apply map_length. Qed.

(** *** the operations on one stack *)
Lemma push_ok p s fl id v l : pinv p s fl -> lookup id s = Some l -> zlen l < 1024 ->
  exists p', stack_push id v p = Ok p' /\ pinv p' (update_id id (v :: l) s) fl /\ length (p_heap p') = length (p_heap p).
Proof.
  intros I L Hl. unfold stack_push, stack_of. pose proof (lookup_Forall2 _ _ _ id (pi_live _ _ _ I)) as X. rewrite L in X.
  destruct (lookup id (p_live p)) as [[i t]|]; [|contradiction]. destruct X as (live1 & live2 & s1 & s2 & EL & -> & F1 & F2 & [_ (d & D1 & D2)]).
  cbn [fst snd] in D1, D2. cbn [rbind]. unfold deref. rewrite D1. cbn [rbind].
  pose proof (rep_top _ _ _ D2) as HT. pose proof (rep_len _ _ _ D2) as HB. pose proof (zlen_nonneg l).
  destruct (Z.leb_spec 0 (t - 1)); [|lia]. destruct (Z.ltb_spec (t - 1) (zlen (d_buf d))); [|lia]. cbn [andb].
  eexists. split; [reflexivity|]. split; [eapply replace_ok; try eassumption; cbn [d_buf]; apply rep_push; assumption|].
  cbn [p_heap]. rewrite list_upd_len. reflexivity.
Qed.
Lemma lookup_update {A} id (x y : A) s : lookup id s = Some x -> lookup id (update_id id y s) = Some y.
Proof.
  induction s as [|[i a] s IH]; cbn [lookup update_id map fst]; [discriminate|]. destruct (Nat.eqb id i) eqn:E; cbn [lookup fst]; rewrite E; auto.
Qed.
Lemma update_update {A} id (x y : A) s : update_id id y (update_id id x s) = update_id id y s.
Proof. unfold update_id. rewrite map_map. apply map_ext. intros [i a]. cbn [fst]. destruct (Nat.eqb id i) eqn:E; cbn [fst]; rewrite E; reflexivity. Qed.
Lemma update_same {A} id (x : A) s : NoDup (map fst s) -> lookup id s = Some x -> update_id id x s = s.
Proof.
  intros N L2. induction s as [|[i y] s IH]; cbn [lookup] in *; [reflexivity|]. unfold update_id in *. cbn [map fst].
  destruct (Nat.eqb_spec id i) as [->|].
  - injection L2 as ->. f_equal. inversion N as [|? ? h1 h2]; subst. clear -h1. induction s as [|[j z] s IH]; cbn; [reflexivity|].
    cbn in h1. rewrite (proj2 (Nat.eqb_neq i j)) by (intros ->; apply h1; auto). f_equal. apply IH. tauto.
  - f_equal. inversion N; subst. apply IH; assumption.
Qed.
Lemma pushes_ok els : forall p s fl id l, pinv p s fl -> lookup id s = Some l -> zlen l + zlen els <= 1024 ->
  exists p', stack_pushes id els p = Ok p' /\ pinv p' (update_id id (rev els ++ l) s) fl /\ length (p_heap p') = length (p_heap p).
Proof.
  induction els as [|v els IH]; intros p s fl id l I L Hl; cbn [stack_pushes rev app].
  - exists p. rewrite (update_same id l s (pi_ids _ _ _ I) L). auto.
  - rewrite zlen_cons in Hl. pose proof (zlen_nonneg els). destruct (push_ok p s fl id v l I L ltac:(lia)) as (p1 & -> & I1 & L1). cbn [rbind].
    destruct (IH p1 _ fl id (v :: l) I1 (lookup_update _ _ _ _ L) ltac:(rewrite zlen_cons; lia)) as (p2 & -> & I2 & L2).
    exists p2. split; [reflexivity|]. split; [|congruence]. rewrite update_update in I2. rewrite <- app_assoc. exact I2.
Qed.
Lemma read_ok p s fl id l : pinv p s fl -> lookup id s = Some l ->
  exists i t d, stack_of p id = Ok (i, t) /\ deref p i = Ok d /\ rep (d_buf d) t l.
Proof.
  intros I L. unfold stack_of. pose proof (lookup_Forall2 _ _ _ id (pi_live _ _ _ I)) as X. rewrite L in X.
  destruct (lookup id (p_live p)) as [[i t]|]; [|contradiction]. destruct X as (_ & _ & _ & _ & _ & _ & _ & _ & [_ (d & D1 & D2)]).
  cbn [fst snd] in D1, D2. exists i, t, d. unfold deref. rewrite D1. auto.
Qed.
Lemma slot_read_ok d t l k v : rep (d_buf d) t l -> znth l k = Some v -> slot_read d (t + k) = Ok v.
Proof. intros R E. unfold slot_read. rewrite (rep_at _ _ _ R k v E). reflexivity. Qed.
Lemma znth_cons_S {A} (x : A) l k : 0 <= k -> znth (x :: l) (k + 1) = znth l k.
Proof. intros Hk. unfold znth. destruct (Z.ltb_spec (k + 1) 0), (Z.ltb_spec k 0); try lia. replace (Z.to_nat (k + 1)) with (Datatypes.S (Z.to_nat k)) by lia. reflexivity. Qed.
Lemma range_equal_ok a b : forall l l' t u,
  length l = length l' -> (forall i v, znth l i = Some v -> znth (d_buf a) (t + i) = Some (Some v)) -> (forall i v, znth l' i = Some v -> znth (d_buf b) (u + i) = Some (Some v)) ->
  range_equal (length l) a b t u = Ok (if list_eq_dec Z.eq_dec l l' then true else false).
Proof.
  induction l as [|x l IH]; intros [|y l'] t u E A B; try discriminate; cbn [length range_equal].
  - destruct (list_eq_dec Z.eq_dec [] []); [reflexivity|congruence].
  - unfold slot_read. pose proof (A 0 x eq_refl) as A0. pose proof (B 0 y eq_refl) as B0. rewrite Z.add_0_r in A0, B0. rewrite A0, B0. cbn [rbind].
    destruct (Z.eqb_spec x y) as [->|Hn].
    + rewrite (IH l').
      * f_equal. destruct (list_eq_dec Z.eq_dec l l'), (list_eq_dec Z.eq_dec (y :: l) (y :: l')); congruence.
      * cbn in E. congruence.
      * intros i v Hv. pose proof (znth_in _ _ _ Hv). rewrite <- Z.add_assoc, (Z.add_comm 1 i). apply A. rewrite znth_cons_S by lia. exact Hv.
      * intros i v Hv. pose proof (znth_in _ _ _ Hv). rewrite <- Z.add_assoc, (Z.add_comm 1 i). apply B. rewrite znth_cons_S by lia. exact Hv.
    + destruct (list_eq_dec Z.eq_dec (x :: l) (y :: l')); [congruence|reflexivity].
Qed.
Lemma rep_put buf t l k v : rep buf t l -> 0 <= k < zlen l -> rep (list_upd buf (Z.to_nat (t + k)) (Some v)) t (list_upd l (Z.to_nat k) v).
Proof.
  intros [R1 R2 R3 R4] Hk. split; [rewrite list_upd_zlen; assumption|assumption|rewrite list_upd_zlen; assumption|].
  intros i x Hx. rewrite znth_list_upd in Hx by lia. rewrite znth_list_upd by lia. destruct (Z.eqb_spec i k) as [->|Hn].
  - rewrite Z.eqb_refl. congruence.
  - destruct (Z.eqb_spec (t + i) (t + k)); [lia|]. apply R4. exact Hx.
Qed.

Theorem pool_step_ok o p s fl r s' : pinv p s fl -> spec_step o s = Some (r, s') ->
  exists p' fl', pool_step o p = Ok (r, p') /\ pinv p' s' fl' /\
    length (p_heap p') = Nat.max (length (p_heap p)) (length s').
Proof.
  intros I Hs. pose proof (sizes _ _ _ I) as SZ. destruct o as [id|id other|id other|id els|id v|id|id k|id k v|id|id other|id]; cbn [spec_step] in Hs.
  - destruct (lookup id s) eqn:L; [discriminate|]. injection Hs as <- <-.
    destruct (new_ok _ _ _ id I (lookup_not_in _ _ L)) as (p' & fl' & E & I' & HL). cbn [pool_step]. rewrite E. cbn [rbind]. eauto.
  - destruct (lookup id s) eqn:L; [discriminate|]. destruct (lookup other s) as [l|] eqn:L2; [|discriminate]. injection Hs as <- <-.
    destruct (new_ok _ _ _ id I (lookup_not_in _ _ L)) as (p' & fl' & E & I' & HL). cbn [pool_step]. rewrite E. cbn [rbind].
    assert (Hne : id <> other) by congruence.
    destruct (assign_ok _ _ _ id other [] l I') as (p2 & E2 & I2 & HL2); [cbn; rewrite Nat.eqb_refl; reflexivity| |assumption|].
    { cbn [lookup]. destruct (Nat.eqb_spec other id); [congruence|assumption]. }
    rewrite E2. cbn [rbind]. exists p2, fl'. split; [reflexivity|].
    pose proof (update_id_split id [] l [] s (fun h => h) (lookup_not_in _ _ L)) as EU. cbn [app] in EU. rewrite EU in I2. split; [exact I2|].
    rewrite HL2, HL. reflexivity.
  - destruct (lookup id s) as [l0|] eqn:L; [|discriminate]. destruct (lookup other s) as [l|] eqn:L2; [|discriminate]. injection Hs as <- <-.
    cbn [pool_step]. destruct (Nat.eqb_spec id other) as [->|Hne].
    + exists p, fl. split; [reflexivity|]. rewrite update_id_len. split; [|lia].
      rewrite (update_same other l s (pi_ids _ _ _ I) L2). assumption.
    + destruct (assign_ok _ _ _ id other l0 l I L L2 Hne) as (p2 & E2 & I2 & HL2). rewrite E2. cbn [rbind]. exists p2, fl.
      split; [reflexivity|]. split; [exact I2|]. rewrite update_id_len, HL2. lia.
  - destruct (lookup id s) eqn:L; [discriminate|]. destruct (Z.leb_spec (zlen els) 1024); [|discriminate]. injection Hs as <- <-.
    destruct (new_ok _ _ _ id I (lookup_not_in _ _ L)) as (p1 & fl1 & E1 & I1 & L1). cbn [pool_step]. rewrite E1. cbn [rbind].
    destruct (pushes_ok els p1 _ fl1 id [] I1) as (p2 & E2 & I2 & L2); [cbn [lookup]; rewrite Nat.eqb_refl; reflexivity|unfold zlen at 1; cbn; lia|].
    rewrite E2. cbn [rbind]. exists p2, fl1. split; [reflexivity|].
    pose proof (update_id_split id [] (rev els ++ []) [] s (fun h => h) (lookup_not_in _ _ L)) as EU. cbn [app] in EU. rewrite EU, app_nil_r in I2.
    split; [exact I2|]. cbn [length]. lia.
  - destruct (lookup id s) as [l|] eqn:L; [|discriminate]. destruct (Z.ltb_spec (zlen l) 1024); [|discriminate]. injection Hs as <- <-.
    destruct (push_ok p s fl id v l I L ltac:(lia)) as (p' & E & I' & HL). cbn [pool_step]. rewrite E. cbn [rbind]. exists p', fl.
    split; [reflexivity|]. split; [exact I'|]. rewrite update_id_len. lia.
  - destruct (lookup id s) as [[|v l]|] eqn:L; [discriminate| |discriminate]. injection Hs as <- <-.
    cbn [pool_step]. unfold stack_of. pose proof (lookup_Forall2 _ _ _ id (pi_live _ _ _ I)) as X. rewrite L in X.
    destruct (lookup id (p_live p)) as [[i t]|]; [|contradiction]. destruct X as (live1 & live2 & s1 & s2 & EL & -> & F1 & F2 & [_ (d & D1 & D2)]).
    cbn [fst snd] in D1, D2. cbn [rbind]. unfold deref. rewrite D1. cbn [rbind].
    destruct (rep_pop _ _ _ _ D2) as [E0 HR]. unfold slot_read. rewrite E0. cbn [rbind]. eexists _, fl. split; [reflexivity|]. split.
    + rewrite <- (list_upd_same _ _ _ D1) at 1. eapply replace_ok; try eassumption.
    + cbn [p_heap]. rewrite update_id_len. lia.
  - destruct (lookup id s) as [l|] eqn:L; [|discriminate]. destruct (znth l k) as [v|] eqn:Ev; [|discriminate]. injection Hs as <- <-.
    destruct (read_ok p s fl id l I L) as (i & t & d & E1 & E2 & R). cbn [pool_step]. rewrite E1. cbn [rbind]. rewrite E2. cbn [rbind].
    rewrite (slot_read_ok d t l k v R Ev). cbn [rbind]. exists p, fl. split; [reflexivity|]. split; [exact I|lia].
  - destruct (lookup id s) as [l|] eqn:L; [|discriminate]. destruct (Z.leb_spec 0 k); [|discriminate]. destruct (Z.ltb_spec k (zlen l)); [|discriminate]. injection Hs as <- <-.
    cbn [pool_step]. unfold stack_of. pose proof (lookup_Forall2 _ _ _ id (pi_live _ _ _ I)) as X. rewrite L in X.
    destruct (lookup id (p_live p)) as [[i t]|] eqn:Lp; [|contradiction]. destruct X as (live1 & live2 & s1 & s2 & EL & -> & F1 & F2 & [_ (d & D1 & D2)]).
    cbn [fst snd] in D1, D2. cbn [rbind]. unfold deref. rewrite D1. cbn [rbind].
    pose proof (rep_top _ _ _ D2) as HT. pose proof (rep_len _ _ _ D2) as HB. pose proof (rep_top0 _ _ _ D2) as Ht0.
    destruct (Z.leb_spec 0 (t + k)); [|lia]. destruct (Z.ltb_spec (t + k) (zlen (d_buf d))); [|lia]. cbn [andb].
    eexists _, fl. split; [reflexivity|]. split.
    + assert (Hk : 0 <= k < zlen l) by lia. pose proof (replace_ok p fl id i t l live1 live2 s1 s2 (mkData (d_next d) (list_upd (d_buf d) (Z.to_nat (t + k)) (Some v))) t (list_upd l (Z.to_nat k) v)
        I EL F1 F2 (rep_put _ _ _ _ _ D2 Hk)) as Y. rewrite (update_same id (i, t) (p_live p)) in Y; [exact Y| |exact Lp].
      rewrite (Forall2_fst _ _ _ (pi_live _ _ _ I)). exact (pi_ids _ _ _ I).
    + cbn [p_heap]. rewrite list_upd_len, update_id_len. lia.
  - destruct (lookup id s) as [l|] eqn:L; [|discriminate]. injection Hs as <- <-.
    destruct (read_ok p s fl id l I L) as (i & t & d & E1 & E2 & R). cbn [pool_step]. rewrite E1. cbn [rbind]. exists p, fl.
    replace (stack_size - t) with (zlen l) by (pose proof (rep_top _ _ _ R); unfold stack_size; lia). split; [reflexivity|]. split; [exact I|lia].
  - destruct (lookup id s) as [l|] eqn:L; [|discriminate]. destruct (lookup other s) as [l'|] eqn:L'; [|discriminate]. injection Hs as <- <-.
    destruct (read_ok p s fl id l I L) as (i & t & d & E1 & E2 & R). destruct (read_ok p s fl other l' I L') as (j & u & d' & E1' & E2' & R').
    cbn [pool_step]. rewrite E1. cbn [rbind]. rewrite E1'. cbn [rbind]. rewrite E2. cbn [rbind]. rewrite E2'. cbn [rbind].
    pose proof (rep_top _ _ _ R). pose proof (rep_top _ _ _ R'). exists p, fl. destruct (Z.eqb_spec (stack_size - t) (stack_size - u)).
    + replace (Z.to_nat (stack_size - t)) with (length l) by (unfold stack_size, zlen in *; lia).
      rewrite (range_equal_ok d d' l l' t u); [|unfold stack_size, zlen in *; lia|apply (rep_at _ _ _ R)|apply (rep_at _ _ _ R')]. cbn [rbind].
      destruct (list_eq_dec Z.eq_dec l l'); (split; [reflexivity|]; split; [exact I|lia]).
    + destruct (list_eq_dec Z.eq_dec l l') as [->|]; [unfold stack_size in *; lia|]. split; [reflexivity|]. split; [exact I|lia].
  - destruct (lookup id s) as [l|] eqn:L; [|discriminate]. injection Hs as <- <-.
    destruct (destroy_ok _ _ _ _ _ I L) as (r & p' & fl' & E & -> & I' & HL). exists p', fl'. split; [exact E|]. split; [exact I'|].
    pose proof (sizes _ _ _ I'). lia.
Qed.

Lemma pool_new_inv : pinv pool_new [] [].
Proof. split; cbn; constructor. Qed.

Theorem pool_run_ok os : forall p s fl rs s' peak, pinv p s fl -> spec_run os s = Some (rs, s', peak) ->
  exists p' fl', pool_run os p = Ok (rs, p') /\ pinv p' s' fl' /\ length (p_heap p') = Nat.max (length (p_heap p)) peak.
Proof.
  induction os as [|o os IH]; intros p s fl rs s' peak I Hs; cbn [spec_run pool_run] in *.
  - injection Hs as <- <- <-. exists p, fl. split; [reflexivity|]. split; [assumption|]. pose proof (sizes _ _ _ I). lia.
  - destruct (spec_step o s) as [[r s1]|] eqn:E1; [|discriminate]. destruct (spec_run os s1) as [[[rs1 s2] pk]|] eqn:E2; [|discriminate].
    injection Hs as <- <- <-. destruct (pool_step_ok _ _ _ _ _ _ I E1) as (p1 & fl1 & F1 & I1 & L1). rewrite F1. cbn [rbind].
    destruct (IH _ _ _ _ _ _ I1 E2) as (p2 & fl2 & F2 & I2 & L2). rewrite F2. cbn [rbind]. exists p2, fl2. split; [reflexivity|]. split; [assumption|].
    assert (Nat.max (length s1) pk = pk). { clear -E2. destruct os as [|o' os']; cbn in E2; [injection E2 as <- <- <-; lia|].
      destruct (spec_step o' s1) as [[? v]|]; [|discriminate]. destruct (spec_run os' v) as [[[? ?] ?]|]; [|discriminate]. injection E2 as <- <- <-. lia. }
    pose proof (sizes _ _ _ I). lia.
Qed.
