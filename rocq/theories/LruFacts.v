(** LruCache refines a bounded list of bindings ordered by recency, without undefined behaviour. *)
From Verif Require Import Base Lru ArithFacts MemFacts JumpFacts SimBase.
From Coq Require Import Lia ZArith List Bool Permutation.

Section Facts.
Context {K V : Type}.
Variable keqb : K -> K -> bool.
Hypothesis keqb_eq : forall a b, keqb a b = true <-> a = b.
Variables (dk : K) (dv : V).
Variable cap : Z.
Hypothesis cap2 : 2 <= cap.

Notation entry := (entry (K:=K) (V:=V)).
Notation lru := (lru (K:=K) (V:=V)).

Definition hd_opt (l : list Z) (d : option Z) : option Z := match l with [] => d | i :: _ => Some i end.
Fixpoint last_opt (l : list Z) (d : option Z) : option Z := match l with [] => d | i :: l' => last_opt l' (Some i) end.

(** the doubly linked list through the entries *)
Fixpoint dll (E : list entry) (p : option Z) (l : list Z) (n : option Z) : Prop :=
  match l with
  | [] => True
  | i :: l' => (exists e, znth E i = Some e /\ n_pred e = p /\ n_succ e = hd_opt l' n) /\ dll E (Some i) l' n
  end.

Lemma last_opt_app a b d : last_opt (a ++ b) d = last_opt b (last_opt a d).
Proof. revert d. induction a; intros; cbn; auto. Qed.
Lemma last_opt_snoc a i d : last_opt (a ++ [i]) d = Some i.
Proof. rewrite last_opt_app. reflexivity. Qed.

Lemma dll_app E a b p n : dll E p (a ++ b) n <-> dll E p a (hd_opt b n) /\ dll E (last_opt a p) b n.
Proof.
  revert p. induction a as [|i a IH]; intros p; cbn [app dll last_opt]; [tauto|].
  rewrite IH. replace (hd_opt (a ++ b) n) with (hd_opt a (hd_opt b n)) by (destruct a; reflexivity). tauto.
Qed.
Lemma dll_upd E p l n i e : dll E p l n -> ~ In i l -> 0 <= i < zlen E -> dll (list_upd E (Z.to_nat i) e) p l n.
Proof.
  revert p. induction l as [|j l IH]; intros p; cbn [dll]; [auto|].
  intros ((x & H1 & H2 & H3) & H4) Hn Hi. cbn in Hn. split; [|apply IH; tauto].
  exists x. rewrite znth_list_upd by assumption. destruct (Z.eqb_spec j i); [tauto|]. auto.
Qed.
Lemma dll_set_first E p q l n i e : znth E i = Some e -> dll E p (i :: l) n -> ~ In i l ->
  dll (list_upd E (Z.to_nat i) (mkEntry (n_key e) (n_val e) q (n_succ e))) q (i :: l) n.
Proof.
  intros He ((x & H1 & H2 & H3) & H4) Hn. rewrite He in H1. injection H1 as <-. pose proof (znth_in _ _ _ He).
  cbn [dll]. split; [|apply dll_upd; assumption]. eexists. rewrite znth_list_upd, Z.eqb_refl by assumption. split; [reflexivity|]. auto.
Qed.
Lemma dll_set_last E p l n m i e : znth E i = Some e -> dll E p (l ++ [i]) n -> ~ In i l ->
  dll (list_upd E (Z.to_nat i) (mkEntry (n_key e) (n_val e) (n_pred e) m)) p (l ++ [i]) m.
Proof.
  intros He HD Hn. apply dll_app in HD. destruct HD as [D1 ((x & H1 & H2 & H3) & _)]. rewrite He in H1. injection H1 as <-.
  pose proof (znth_in _ _ _ He). apply dll_app. split; [apply dll_upd; assumption|]. cbn [dll]. split; [|exact I].
  eexists. rewrite znth_list_upd, Z.eqb_refl by assumption. split; [reflexivity|]. auto.
Qed.
Lemma dll_in E p l n i : dll E p l n -> In i l -> exists e, znth E i = Some e.
Proof.
  revert p. induction l as [|j l IH]; intros p; cbn [dll In]; [tauto|].
  intros ((x & H1 & _) & H4) [->|Hi]; [eauto|eauto].
Qed.

(** key and value of entries are unchanged *)
Definition same_kv (E E' : list entry) : Prop := length E' = length E /\
  forall i e, znth E i = Some e -> exists e', znth E' i = Some e' /\ n_key e' = n_key e /\ n_val e' = n_val e.
Lemma same_kv_refl E : same_kv E E. Proof. split; eauto. Qed.
Lemma same_kv_trans A B C : same_kv A B -> same_kv B C -> same_kv A C.
Proof.
  intros [L1 H1] [L2 H2]. split; [congruence|]. intros i e He. destruct (H1 _ _ He) as (e' & E1 & E2 & E3).
  destruct (H2 _ _ E1) as (e2 & F1 & F2 & F3). exists e2. repeat split; congruence.
Qed.
Lemma same_kv_upd E i e p s : znth E i = Some e -> same_kv E (list_upd E (Z.to_nat i) (mkEntry (n_key e) (n_val e) p s)).
Proof.
  intros He. split; [apply list_upd_length|]. intros j x Hx. rewrite znth_list_upd by (apply (znth_in _ _ _ He)).
  destruct (Z.eqb_spec j i) as [->|]; [|eauto]. rewrite He in Hx. injection Hx as <-. eexists. split; [reflexivity|]. auto.
Qed.

(** the entry [i] holds the binding [kv] *)
Definition holds (E : list entry) (i : Z) (kv : K * V) : Prop :=
  exists e, znth E i = Some e /\ n_key e = fst kv /\ n_val e = snd kv.
Lemma holds_same E E' l b : same_kv E E' -> Forall2 (holds E) l b -> Forall2 (holds E') l b.
Proof.
  intros [_ HS] HF. induction HF as [|i kv l b Hi HF IH]; constructor; [|assumption].
  destruct Hi as (e & H1 & H2 & H3). destruct (HS _ _ H1) as (e' & F1 & F2 & F3). exists e'. repeat split; congruence.
Qed.

(** The cache [c] represents the bindings [l]. *)
Record rep (c : lru) (l : list (K * V)) : Prop := mkRep {
  rp : exists used free nxt,
    zlen (c_ents c) = cap /\ zlen (used ++ free) = cap /\ NoDup (used ++ free) /\
    dll (c_ents c) None (used ++ free) nxt /\ (nxt = None \/ l = []) /\
    c_head c = hd_opt (used ++ free) None /\ c_tail c = last_opt (used ++ free) None /\
    Forall2 (holds (c_ents c)) used l /\ NoDup (map fst l) /\
    Permutation (c_index c) (combine (map fst l) used)
}.

Lemma ptr_eqb_spec p q : ptr_eqb p q = true <-> p = q.
Proof.
  destruct p, q; cbn; try (split; congruence). rewrite Z.eqb_eq. split; congruence.
Qed.

Lemma ent_ok (c : lru) i e : znth (c_ents c) i = Some e -> ent c (Some i) = Ok (i, e).
Proof. intros H. unfold ent. rewrite H. reflexivity. Qed.
Lemma set_pred_ok (c : lru) i e q : znth (c_ents c) i = Some e ->
  set_pred (Some i) q c = Ok (put c i (mkEntry (n_key e) (n_val e) q (n_succ e))).
Proof. intros H. unfold set_pred. rewrite (ent_ok _ _ _ H). reflexivity. Qed.
Lemma set_succ_ok (c : lru) i e q : znth (c_ents c) i = Some e ->
  set_succ (Some i) q c = Ok (put c i (mkEntry (n_key e) (n_val e) (n_pred e) q)).
Proof. intros H. unfold set_succ. rewrite (ent_ok _ _ _ H). reflexivity. Qed.

Lemma Forall2_length {A B} (P : A -> B -> Prop) a b : Forall2 P a b -> length a = length b.
Proof. induction 1; cbn; congruence. Qed.
Lemma snoc_cases {A} (l : list A) : l = [] \/ exists l' x, l = l' ++ [x].
Proof. induction l using rev_ind; eauto. Qed.

Lemma NoDup_mid {A} (a b : list A) x : NoDup (a ++ x :: b) -> ~ In x a /\ ~ In x b /\ NoDup (a ++ b).
Proof.
  intros H. pose proof (NoDup_remove_1 _ _ _ H). pose proof (NoDup_remove_2 _ _ _ H) as H2.
  rewrite in_app_iff in H2. tauto.
Qed.

Ltac proj := cbn [put set_head set_tail set_index c_ents c_index c_head c_tail].

(** moving a node to the front of the list *)
Lemma front_ok (c : lru) i l n h t : zlen (c_ents c) = cap -> (exists e, znth (c_ents c) i = Some e) ->
  dll (c_ents c) None (h :: l) n -> NoDup (i :: h :: l) -> c_head c = Some h -> c_tail c = t ->
  exists c', (do! c <- set_pred (Some i) None c; do! c <- set_succ (Some i) (c_head c) c;
              do! c <- set_pred (c_head c) (Some i) c; Ok (set_head (Some i) c)) = Ok c' /\
    dll (c_ents c') None (i :: h :: l) n /\ same_kv (c_ents c) (c_ents c') /\ c_index c' = c_index c /\
    c_head c' = Some i /\ c_tail c' = t.
Proof.
  intros HL (e & He) HD HN Hh Ht. apply NoDup_cons_iff in HN. destruct HN as [N1 N2].
  pose proof (znth_in _ _ _ He) as Hi.
  rewrite (set_pred_ok _ _ _ _ He). cbn [rbind]. proj.
  set (E1 := list_upd (c_ents c) (Z.to_nat i) (mkEntry (n_key e) (n_val e) None (n_succ e))).
  assert (He1 : znth E1 i = Some (mkEntry (n_key e) (n_val e) None (n_succ e))).
  { unfold E1. rewrite znth_list_upd, Z.eqb_refl by assumption. reflexivity. }
  erewrite (set_succ_ok _ i); [|proj; exact He1]. cbn [rbind]. proj. cbn [n_key n_val n_pred n_succ]. rewrite Hh. fold E1.
  set (E2 := list_upd E1 (Z.to_nat i) (mkEntry (n_key e) (n_val e) None (Some h))).
  assert (D2 : dll E2 None (h :: l) n).
  { unfold E2. apply dll_upd; [|assumption|unfold E1; rewrite list_upd_zlen; assumption]. unfold E1. apply dll_upd; assumption. }
  destruct D2 as ((eh & Hh1 & Hh2 & Hh3) & D2).
  erewrite (set_pred_ok _ h); [|proj; exact Hh1]. cbn [rbind]. proj.
  eexists. split; [reflexivity|]. proj.
  assert (Hhi : h <> i) by (intros ->; apply N1; left; reflexivity).
  pose proof (znth_in _ _ _ Hh1) as Hhr.
  split.
  - change (i :: h :: l) with ([i] ++ (h :: l)). apply dll_app. split.
    + cbn [dll hd_opt]. split; [|exact I]. eexists. rewrite znth_list_upd by assumption.
      destruct (Z.eqb_spec i h); [congruence|]. unfold E2. rewrite znth_list_upd, Z.eqb_refl by (unfold E1; rewrite list_upd_zlen; assumption).
      split; [reflexivity|]. split; reflexivity.
    + cbn [last_opt]. eapply dll_set_first; [exact Hh1| |].
      * cbn [dll]. split; [|exact D2]. eauto.
      * apply NoDup_cons_iff in N2. tauto.
  - split; [|auto]. eapply same_kv_trans; [|apply same_kv_upd; exact Hh1].
    eapply same_kv_trans; [apply same_kv_upd; exact He|]. apply (same_kv_upd _ _ _ None (Some h)) in He1. exact He1.
Qed.

Lemma touch_ok (c : lru) l1 i l2 : zlen (c_ents c) = cap -> NoDup (l1 ++ i :: l2) -> dll (c_ents c) None (l1 ++ i :: l2) None ->
  c_head c = hd_opt (l1 ++ i :: l2) None -> c_tail c = last_opt (l1 ++ i :: l2) None ->
  exists c', touch (Some i) c = Ok c' /\ dll (c_ents c') None (i :: l1 ++ l2) None /\ same_kv (c_ents c) (c_ents c') /\
    c_index c' = c_index c /\ c_head c' = Some i /\ c_tail c' = last_opt (i :: l1 ++ l2) None.
Proof.
  intros HL HN HD Hh Ht. destruct (NoDup_mid _ _ _ HN) as (N1 & N2 & N3).
  unfold touch. destruct (ptr_eqb (Some i) (c_head c)) eqn:Eh.
  - apply ptr_eqb_spec in Eh. destruct l1 as [|h l1].
    + exists c. cbn [app] in *. split; [reflexivity|]. split; [exact HD|]. split; [apply same_kv_refl|]. auto.
    + exfalso. cbn in Hh. rewrite Hh in Eh. injection Eh as ->. apply N1. left. reflexivity.
  - destruct (snoc_cases l1) as [->|(l0 & p & ->)].
    { cbn in Hh. rewrite Hh in Eh. cbn in Eh. rewrite Z.eqb_refl in Eh. discriminate. }
    apply dll_app in HD. destruct HD as [D1 D2]. cbn [hd_opt] in D1. rewrite last_opt_snoc in D2.
    destruct D2 as ((e & He & Hep & Hes) & D2).
    destruct (dll_in _ _ _ _ p D1 ltac:(rewrite in_app_iff; cbn; auto)) as (ep & Hp).
    rewrite (ent_ok _ _ _ He). cbn [rbind]. rewrite Hep, Hes, (set_succ_ok _ _ _ _ Hp). cbn [rbind].
    assert (Hpi : p <> i). { intros ->. apply N1. rewrite in_app_iff. cbn. auto. }
    pose proof (znth_in _ _ _ Hp) as Hpr. pose proof (znth_in _ _ _ He) as Hir.
    set (E1 := list_upd (c_ents c) (Z.to_nat p) (mkEntry (n_key ep) (n_val ep) (n_pred ep) (hd_opt l2 None))).
    assert (HN0 : NoDup ((l0 ++ [p]) ++ l2)) by exact N3.
    assert (Np : ~ In p l0 /\ ~ In p l2). { rewrite <- app_assoc in HN0. cbn in HN0. destruct (NoDup_mid _ _ _ HN0) as (? & ? & _). auto. }
    assert (De1 : dll E1 None (l0 ++ [p]) (hd_opt l2 None)). { eapply dll_set_last; [exact Hp|exact D1|tauto]. }
    assert (De2 : dll E1 (Some i) l2 None). { apply dll_upd; tauto. }
    assert (He1 : znth E1 i = Some e). { unfold E1. rewrite znth_list_upd by assumption. destruct (Z.eqb_spec i p); [congruence|exact He]. }
    erewrite ent_ok; [|proj; exact He1]. cbn [rbind]. rewrite Hep, Hes.
    assert (SK1 : same_kv (c_ents c) E1) by (apply same_kv_upd; exact Hp).
    assert (HE1 : zlen E1 = cap) by (unfold E1; rewrite list_upd_zlen; exact HL).
    (* unlink *)
    assert (HU : exists c2, (match hd_opt l2 None with
        | Some _ => set_pred (hd_opt l2 None) (Some p) (put c p (mkEntry (n_key ep) (n_val ep) (n_pred ep) (hd_opt l2 None)))
        | None => Ok (set_tail (Some p) (put c p (mkEntry (n_key ep) (n_val ep) (n_pred ep) (hd_opt l2 None)))) end) = Ok c2 /\
        dll (c_ents c2) None ((l0 ++ [p]) ++ l2) None /\ same_kv (c_ents c) (c_ents c2) /\ c_index c2 = c_index c /\
        c_head c2 = c_head c /\ c_tail c2 = last_opt ((l0 ++ [p]) ++ l2) None /\ (exists x, znth (c_ents c2) i = Some x)).
    { destruct l2 as [|j l2]; cbn [hd_opt] in *.
      - eexists. split; [reflexivity|]. proj. rewrite app_nil_r. split; [exact De1|]. split; [exact SK1|]. split; [reflexivity|]. split; [reflexivity|].
        split; [rewrite last_opt_snoc; reflexivity|]. eauto.
      - assert (Hj : exists ej, znth E1 j = Some ej) by (eapply dll_in; [exact De2|left; reflexivity]). destruct Hj as (ej & Hj).
        erewrite set_pred_ok; [|proj; exact Hj]. eexists. split; [reflexivity|]. proj. fold E1.
        pose proof (znth_in _ _ _ Hj) as Hjr.
        assert (Nj : ~ In j (l0 ++ [p]) /\ ~ In j l2). { destruct (NoDup_mid _ _ _ HN0) as (? & ? & _). auto. }
        split.
        { apply dll_app. split; [apply dll_upd; tauto|]. rewrite last_opt_snoc. eapply dll_set_first; [exact Hj|exact De2|tauto]. }
        split; [eapply same_kv_trans; [exact SK1|apply same_kv_upd; exact Hj]|]. split; [reflexivity|]. split; [reflexivity|].
        split. { rewrite Ht. rewrite !last_opt_app. reflexivity. }
        destruct (Z.eqb_spec i j) as [->|Hij]; [exfalso; apply N2; left; reflexivity|].
        exists e. rewrite znth_list_upd by assumption. destruct (Z.eqb_spec i j); [congruence|exact He1]. }
    destruct HU as (c2 & EU & U1 & U2 & U3 & U4 & U5 & U6). rewrite EU. cbn [rbind].
    destruct ((l0 ++ [p]) ++ l2) as [|h lr] eqn:El; [destruct l0; discriminate|].
    destruct (front_ok c2 i lr None h (last_opt (h :: lr) None)) as (c3 & E3 & F1 & F2 & F3 & F4 & F5).
    + destruct U2 as [U2 _]. unfold zlen in *. lia.
    + exact U6.
    + exact U1.
    + constructor; [|assumption]. rewrite <- El. rewrite in_app_iff. tauto.
    + rewrite U4, Hh. destruct l0 as [|h0 l0]; cbn in El |- *; injection El as E4 E5; rewrite E4; reflexivity.
    + exact U5.
    + exists c3. split; [exact E3|]. split; [exact F1|]. split; [eapply same_kv_trans; eassumption|].
      split; [congruence|]. split; [exact F4|]. rewrite F5. reflexivity.
Qed.

Lemma get_new_head_ok (c : lru) l t nxt : zlen (c_ents c) = cap -> l <> [] -> NoDup (l ++ [t]) -> dll (c_ents c) None (l ++ [t]) nxt ->
  c_head c = hd_opt (l ++ [t]) None -> c_tail c = Some t ->
  exists c' e, get_new_head keqb c = Ok (Some t, c') /\ znth (c_ents c) t = Some e /\
    dll (c_ents c') None (t :: l) None /\ same_kv (c_ents c) (c_ents c') /\
    c_index c' = (if cap <=? zlen (c_index c) then ix_erase keqb (n_key e) (c_index c) else c_index c) /\
    c_head c' = Some t /\ c_tail c' = last_opt (t :: l) None.
Proof.
  intros HL Hl HN HD Hh Ht. destruct (snoc_cases l) as [->|(l0 & p & ->)]; [congruence|].
  apply dll_app in HD. destruct HD as [D1 ((e & He & Hep & Hes) & _)]. rewrite last_opt_snoc in Hep. cbn [hd_opt] in D1.
  destruct (dll_in _ _ _ _ p D1 ltac:(rewrite in_app_iff; cbn; auto)) as (ep & Hp).
  pose proof (znth_in _ _ _ Hp) as Hpr. pose proof (znth_in _ _ _ He) as Htr.
  destruct (NoDup_mid _ _ _ HN) as (N1 & _ & N3). rewrite app_nil_r in N3.
  destruct (NoDup_mid _ _ _ N3) as (N4 & _ & _).
  assert (Hpt : p <> t). { intros ->. apply N1. rewrite in_app_iff. cbn. auto. }
  unfold get_new_head. rewrite Ht, (ent_ok _ _ _ He). cbn [rbind]. rewrite Hep, (set_succ_ok _ _ _ _ Hp). cbn [rbind].
  set (E1 := list_upd (c_ents c) (Z.to_nat p) (mkEntry (n_key ep) (n_val ep) (n_pred ep) None)).
  assert (He1 : znth E1 t = Some e). { unfold E1. rewrite znth_list_upd by assumption. destruct (Z.eqb_spec t p); [congruence|exact He]. }
  change (c_tail (put c p (mkEntry (n_key ep) (n_val ep) (n_pred ep) None))) with (c_tail c). rewrite Ht.
  erewrite ent_ok; [|proj; exact He1]. cbn [rbind].
  assert (De1 : dll E1 None (l0 ++ [p]) None). { eapply dll_set_last; [exact Hp|exact D1|tauto]. }
  assert (HE1 : zlen E1 = cap) by (unfold E1; rewrite list_upd_zlen; exact HL).
  assert (SK1 : same_kv (c_ents c) E1) by (apply same_kv_upd; exact Hp).
  change (c_ents (put c p (mkEntry (n_key ep) (n_val ep) (n_pred ep) None))) with E1.
  change (c_index (put c p (mkEntry (n_key ep) (n_val ep) (n_pred ep) None))) with (c_index c). rewrite HE1.
  set (idx := if cap <=? zlen (c_index c) then ix_erase keqb (n_key e) (c_index c) else c_index c).
  replace (if cap <=? zlen (c_index c) then set_index (ix_erase keqb (n_key e) (c_index c)) (put c p (mkEntry (n_key ep) (n_val ep) (n_pred ep) None)) else put c p (mkEntry (n_key ep) (n_val ep) (n_pred ep) None))
    with (mkLru E1 idx (c_head c) (Some t)) by (unfold idx; destruct (cap <=? zlen (c_index c)); unfold put, set_index; cbn; rewrite Ht; reflexivity).
  cbn [c_tail c_ents c_index c_head].
  change (set_tail (Some p) (mkLru E1 idx (c_head c) (Some t))) with (mkLru E1 idx (c_head c) (Some p)).
  destruct (l0 ++ [p]) as [|h lr] eqn:El; [destruct l0; discriminate|].
  destruct (front_ok (mkLru E1 idx (c_head c) (Some p)) t lr None h (Some p)) as (c3 & E3 & F1 & F2 & F3 & F4 & F5).
  - exact HE1.
  - eauto.
  - exact De1.
  - constructor; assumption.
  - exact Hh.
  - reflexivity.
  - cbn [c_ents c_index] in *.
    revert E3. destruct (set_pred (Some t) None (mkLru E1 idx (c_head c) (Some p))) as [c4| |]; cbn [rbind]; [|discriminate..].
    destruct (set_succ (Some t) (c_head c4) c4) as [c5| |]; cbn [rbind]; [|discriminate..].
    destruct (set_pred (c_head c5) (Some t) c5) as [c6| |]; cbn [rbind]; [|discriminate..].
    intros E3. injection E3 as E3. exists c3, e. split; [subst c3; reflexivity|]. split; [exact He|]. split; [exact F1|].
    split; [eapply same_kv_trans; eassumption|]. split; [exact F3|]. split; [exact F4|]. rewrite F5. rewrite <- El.
    cbn [last_opt]. rewrite last_opt_snoc. reflexivity.
Qed.

(** ** the index *)
Lemma ix_find_in k m i : ix_find keqb k m = Some i -> In (k, i) m.
Proof.
  induction m as [|[k' j] m IH]; cbn; [discriminate|]. destruct (keqb k k') eqn:E; [|auto].
  apply keqb_eq in E. intros [= ->]. subst. auto.
Qed.
Lemma in_ix_find k m i : NoDup (map fst m) -> In (k, i) m -> ix_find keqb k m = Some i.
Proof.
  induction m as [|[k' j] m IH]; cbn; [tauto|]. intros HN [[= -> ->]|Hi].
  - replace (keqb k k) with true by (symmetry; apply keqb_eq; reflexivity). reflexivity.
  - apply NoDup_cons_iff in HN. destruct HN as [N1 N2]. destruct (keqb k k') eqn:E; [|auto].
    apply keqb_eq in E. subst. exfalso. apply N1. apply in_map_iff. exists (k', i). auto.
Qed.
Lemma ix_find_none k m : ix_find keqb k m = None <-> ~ In k (map fst m).
Proof.
  induction m as [|[k' j] m IH]; cbn; [tauto|]. destruct (keqb k k') eqn:E.
  - apply keqb_eq in E. subst. split; [discriminate|tauto].
  - rewrite IH. split; [|tauto]. intros h [->|h2]; [|tauto]. assert (keqb k k = true) by (apply keqb_eq; reflexivity). congruence.
Qed.
Lemma a_find_none k (l : list (K * V)) : a_find keqb k l = None <-> ~ In k (map fst l).
Proof.
  induction l as [|[k' j] m IH]; cbn; [tauto|]. destruct (keqb k k') eqn:E.
  - apply keqb_eq in E. subst. split; [discriminate|tauto].
  - rewrite IH. split; [|tauto]. intros h [->|h2]; [|tauto]. assert (keqb k k = true) by (apply keqb_eq; reflexivity). congruence.
Qed.
Lemma keqb_refl k : keqb k k = true. Proof. apply keqb_eq. reflexivity. Qed.
Lemma keqb_neq a b : a <> b -> keqb a b = false.
Proof. intros. destruct (keqb a b) eqn:E; [apply keqb_eq in E; contradiction|reflexivity]. Qed.

Lemma filter_not_in {A} k (l : list (K * A)) : ~ In k (map fst l) -> filter (fun p => negb (keqb k (fst p))) l = l.
Proof.
  induction l as [|[k' j] l IH]; cbn; [reflexivity|]. intros h. rewrite keqb_neq by (intros ->; apply h; auto). cbn. rewrite IH; tauto.
Qed.
Lemma a_find_split k v (l1 l2 : list (K * V)) : ~ In k (map fst l1) -> a_find keqb k (l1 ++ (k, v) :: l2) = Some v.
Proof.
  induction l1 as [|[k' j] l IH]; cbn; [rewrite keqb_refl; reflexivity|]. intros h. rewrite keqb_neq by (intros ->; apply h; auto). tauto.
Qed.
Lemma filter_split {A} k (v : A) l1 l2 : ~ In k (map fst l1) -> ~ In k (map fst l2) ->
  filter (fun p => negb (keqb k (fst p))) (l1 ++ (k, v) :: l2) = l1 ++ l2.
Proof. intros h1 h2. rewrite filter_app. cbn. rewrite keqb_refl. cbn. rewrite !filter_not_in by assumption. reflexivity. Qed.

Lemma map_fst_combine {A B} (a : list A) (b : list B) : length a = length b -> map fst (combine a b) = a.
Proof. revert b. induction a; intros [|y b] H; cbn in *; try lia; [reflexivity|]. f_equal. apply IHa. lia. Qed.
Lemma combine_app {A B} (a a' : list A) (b b' : list B) : length a = length b -> combine (a ++ a') (b ++ b') = combine a b ++ combine a' b'.
Proof. revert b. induction a; intros [|y b] H; cbn in *; try lia; [reflexivity|]. f_equal. apply IHa. lia. Qed.

(** a bound key has an entry; the bindings and entries split around it *)
Lemma index_split used (l : list (K * V)) idx k i :
  length used = length l -> NoDup (map fst l) -> Permutation idx (combine (map fst l) used) -> ix_find keqb k idx = Some i ->
  exists u1 u2 l1 l2 v, used = u1 ++ i :: u2 /\ l = l1 ++ (k, v) :: l2 /\ length u1 = length l1 /\ length u2 = length l2.
Proof.
  intros HL HN HP Hf. apply ix_find_in in Hf. apply (Permutation_in _ HP) in Hf. clear HP HN idx.
  revert used HL Hf. induction l as [|[k' v'] l IH]; intros [|j used] HL Hf; cbn in *; try tauto; try lia.
  destruct Hf as [[= -> ->]|Hf].
  - exists [], used, [], l, v'. repeat split. cbn. lia.
  - destruct (IH used ltac:(lia) Hf) as (u1 & u2 & l1 & l2 & v & -> & -> & E1 & E2).
    exists (j :: u1), u2, ((k', v') :: l1), l2, v. cbn. auto.
Qed.

Lemma Forall2_split {A B} (P : A -> B -> Prop) a x b c y d : length a = length c ->
  Forall2 P (a ++ x :: b) (c ++ y :: d) -> Forall2 P a c /\ P x y /\ Forall2 P b d.
Proof.
  revert c. induction a as [|a0 a IH]; intros [|c0 c] HL HF; cbn in *; try lia.
  - inversion HF; subst. auto.
  - inversion HF as [|? ? ? ? h1 h2]; subst. destruct (IH c ltac:(lia) h2) as (? & ? & ?). auto.
Qed.

Lemma idx_keys (used : list Z) (l : list (K * V)) (idx : list (K * Z)) : length used = length l -> NoDup (map fst l) ->
  Permutation idx (combine (map fst l) used) -> NoDup (map fst idx) /\ (forall k, In k (map fst idx) <-> In k (map fst l)) /\ length idx = length l.
Proof.
  intros HL HN HP. pose proof (Permutation_map fst HP) as HP'. rewrite map_fst_combine in HP' by (rewrite map_length; lia).
  split; [|split].
  - eapply Permutation_NoDup; [apply Permutation_sym; exact HP'|exact HN].
  - intros k. split; apply Permutation_in; [exact HP'|apply Permutation_sym; exact HP'].
  - rewrite (Permutation_length HP), combine_length, map_length. lia.
Qed.

Theorem get_rep c (l : list (K * V)) k : rep c l -> exists c', get keqb k c = Ok (fst (a_get keqb k l), c') /\ rep c' (snd (a_get keqb k l)).
Proof.
  intros [(used & free & nxt & R1 & R2 & R3 & R4 & R5 & R6 & R7 & R8 & R9 & R10)].
  pose proof (Forall2_length _ _ _ R8) as HLen. destruct (idx_keys _ _ _ HLen R9 R10) as (K1 & K2 & K3).
  unfold get, a_get. destruct (ix_find keqb k (c_index c)) as [i|] eqn:Ei.
  - destruct (index_split _ _ _ _ _ HLen R9 R10 Ei) as (u1 & u2 & l1 & l2 & v & -> & -> & E1 & E2).
    destruct R5 as [->|R5]; [|destruct l1; discriminate].
    rewrite <- app_assoc in *. cbn [app] in *.
    destruct (touch_ok c u1 i (u2 ++ free) R1 R3 R4 R6 R7) as (c' & T1 & T2 & T3 & T4 & T5 & T6).
    rewrite map_app in R9. cbn [map fst] in R9. destruct (NoDup_mid _ _ _ R9) as (N1 & N2 & N3).
    rewrite a_find_split by exact N1. unfold a_remove. rewrite filter_split by assumption. cbn [fst snd].
    rewrite T1. cbn [rbind].
    destruct (Forall2_split _ _ _ _ _ _ _ E1 R8) as (F1 & F2 & F3).
    assert (F2' : holds (c_ents c') i (k, v)). { eapply (holds_same _ _ [i] [(k, v)] T3) in F2 || idtac.
      assert (X : Forall2 (holds (c_ents c')) [i] [(k, v)]) by (apply (holds_same (c_ents c)); [exact T3|constructor; [exact F2|constructor]]). inversion X; assumption. }
    destruct F2' as (e & He & Hk & Hv). rewrite (ent_ok _ _ _ He). cbn [rbind]. rewrite Hv. cbn [snd].
    exists c'. split; [reflexivity|]. constructor. exists (i :: u1 ++ u2), free, None.
    assert (EQ : (i :: u1 ++ u2) ++ free = i :: u1 ++ u2 ++ free) by (cbn; rewrite app_assoc; reflexivity). rewrite EQ.
    destruct T3 as [T3a T3b]. destruct (NoDup_mid _ _ _ R3) as (M1 & M2 & M3).
    split; [unfold zlen in *; lia|]. split; [unfold zlen in *; rewrite app_length in *; cbn [length] in *; rewrite !app_length in *; lia|].
    split; [constructor; [rewrite in_app_iff; tauto|exact M3]|]. split; [exact T2|]. split; [left; reflexivity|].
    split; [exact T5|]. split; [exact T6|]. split.
    { constructor; [exists e; auto|]. apply Forall2_app; apply (holds_same (c_ents c)); try assumption; split; assumption. }
    split. { cbn [map fst]. rewrite map_app. constructor; [rewrite in_app_iff; tauto|exact N3]. }
    rewrite T4. eapply Permutation_trans; [exact R10|]. cbn [map fst]. rewrite !map_app. cbn [map fst].
    rewrite combine_app by (rewrite map_length; lia). cbn [combine]. rewrite combine_app by (rewrite map_length; lia).
    apply Permutation_sym, Permutation_middle.
  - rewrite ix_find_none, K2 in Ei. apply a_find_none in Ei. rewrite Ei. cbn [fst snd].
    exists c. split; [reflexivity|]. constructor. exists used, free, nxt. auto 15.
Qed.

Lemma holds_upd_other E j e i kv : i <> j -> 0 <= j < zlen E -> holds E i kv -> holds (list_upd E (Z.to_nat j) e) i kv.
Proof. intros Hij Hj (x & H1 & H2 & H3). exists x. rewrite znth_list_upd by assumption. destruct (Z.eqb_spec i j); [contradiction|auto]. Qed.
Lemma Forall2_upd_other E j e u b : ~ In j u -> 0 <= j < zlen E -> Forall2 (holds E) u b -> Forall2 (holds (list_upd E (Z.to_nat j) e)) u b.
Proof.
  intros Hn Hj HF. induction HF as [|i kv u b Hi HF IH]; constructor; cbn in Hn; [|tauto].
  apply holds_upd_other; auto. 
Qed.
Lemma dll_upd_val E p l n i e k v : znth E i = Some e -> dll E p l n ->
  dll (list_upd E (Z.to_nat i) (mkEntry k v (n_pred e) (n_succ e))) p l n.
Proof.
  intros He. revert p. induction l as [|j l IH]; intros p; cbn [dll]; [auto|].
  intros ((x & H1 & H2 & H3) & H4). split; [|auto]. rewrite znth_list_upd by (apply (znth_in _ _ _ He)).
  destruct (Z.eqb_spec j i) as [->|]; [|eauto]. rewrite He in H1. injection H1 as <-. eexists. split; [reflexivity|]. auto.
Qed.

Lemma map_replace_split k v v0 (l1 l2 : list (K * V)) : ~ In k (map fst l1) -> ~ In k (map fst l2) ->
  map (fun p => if keqb k (fst p) then (fst p, v) else p) (l1 ++ (k, v0) :: l2) = l1 ++ (k, v) :: l2.
Proof.
  assert (X : forall l : list (K * V), ~ In k (map fst l) -> map (fun p => if keqb k (fst p) then (fst p, v) else p) l = l).
  { induction l as [|[a b] l IH]; cbn; [reflexivity|]. intros h. rewrite keqb_neq by (intros ->; apply h; auto). rewrite IH; tauto. }
  intros h1 h2. rewrite map_app. cbn [map fst]. rewrite keqb_refl, !X by assumption. reflexivity.
Qed.

Theorem insert_rep c (l : list (K * V)) k v : rep c l -> exists c', insert_or_assign keqb k v c = Ok (v, c') /\ rep c' (a_put keqb cap k v l).
Proof.
  intros [(used & free & nxt & R1 & R2 & R3 & R4 & R5 & R6 & R7 & R8 & R9 & R10)].
  pose proof (Forall2_length _ _ _ R8) as HLen. destruct (idx_keys _ _ _ HLen R9 R10) as (K1 & K2 & K3).
  unfold insert_or_assign, a_put. destruct (ix_find keqb k (c_index c)) as [i|] eqn:Ei.
  - destruct (index_split _ _ _ _ _ HLen R9 R10 Ei) as (u1 & u2 & l1 & l2 & v0 & -> & -> & E1 & E2).
    rewrite map_app in R9. cbn [map fst] in R9. destruct (NoDup_mid _ _ _ R9) as (N1 & N2 & N3).
    rewrite a_find_split, map_replace_split by assumption.
    destruct (Forall2_split _ _ _ _ _ _ _ E1 R8) as (F1 & (e & He & Hk & Hv) & F3).
    rewrite (ent_ok _ _ _ He). cbn [rbind]. eexists. split; [reflexivity|].
    pose proof (znth_in _ _ _ He) as Hir.
    assert (Hu : ~ In i u1 /\ ~ In i u2). { rewrite <- app_assoc in R3. cbn [app] in R3. destruct (NoDup_mid _ _ _ R3) as (A & B & _). rewrite in_app_iff in B. tauto. }
    constructor. exists (u1 ++ i :: u2), free, nxt. proj. rewrite list_upd_zlen.
    split; [assumption|]. split; [assumption|]. split; [assumption|]. split; [apply dll_upd_val; assumption|].
    split. { destruct R5 as [|R5]; [auto|destruct l1; discriminate]. }
    split; [assumption|]. split; [assumption|]. split.
    { apply Forall2_app; [apply Forall2_upd_other; tauto|]. constructor; [|apply Forall2_upd_other; tauto].
      eexists. rewrite znth_list_upd, Z.eqb_refl by assumption. split; [reflexivity|]. cbn. auto. }
    rewrite !map_app in *. cbn [map fst] in *. split; assumption.
  - rewrite ix_find_none, K2 in Ei. pose proof Ei as Ef. apply a_find_none in Ef. rewrite Ef.
    (* the list of entries ends in the recycled one *)
    destruct (snoc_cases (used ++ free)) as [Eo|(ord & t & Eo)]; [rewrite Eo in R2; unfold zlen in R2; cbn in R2; lia|].
    rewrite Eo in *. rewrite last_opt_snoc in R7.
    assert (Ho : ord <> []). { intros ->. unfold zlen in R2. cbn in R2. lia. }
    destruct (get_new_head_ok c ord t nxt R1 Ho R3 R4 R6 R7) as (c1 & e & G1 & G2 & G3 & G4 & G5 & G6 & G7).
    rewrite G1. cbn [rbind].
    destruct G4 as [G4a G4b]. destruct (G4b _ _ G2) as (e1 & He1 & Hk1 & Hv1).
    rewrite (ent_ok _ _ _ He1). cbn [rbind]. eexists. split; [reflexivity|].
    pose proof (znth_in _ _ _ He1) as Htr.
    destruct (NoDup_mid _ _ _ R3) as (M1 & _ & M3). rewrite app_nil_r in M3.
    assert (HC : exists used' l' idx', idx' = c_index c1 /\ (exists free', ord = used' ++ free') /\ Forall2 (holds (c_ents c)) used' l' /\
       NoDup (map fst l') /\ ~ In k (map fst l') /\ Permutation idx' (combine (map fst l') used') /\
       firstn (Z.to_nat cap) ((k, v) :: l) = (k, v) :: l').
    { assert (Hzl : zlen (c_index c) = zlen l) by (unfold zlen; lia).
      destruct (snoc_cases free) as [->|(free' & t' & ->)].
      - (* full: the least recently used binding is dropped *)
        rewrite app_nil_r in Eo. subst used.
        destruct (snoc_cases l) as [->|(l' & [kt vt] & ->)]; [exfalso; rewrite app_length in HLen; cbn in HLen; lia|].
        assert (HL' : length ord = length l') by (rewrite !app_length in HLen; cbn in HLen; lia).
        destruct (Forall2_split _ _ _ _ _ _ _ HL' R8) as (F1 & (e' & He' & Hk' & Hv') & _).
        rewrite G2 in He'. injection He' as <-. cbn [fst] in Hk'.
        rewrite map_app in R9, Ei. cbn [map fst] in R9, Ei. destruct (NoDup_mid _ _ _ R9) as (N1 & _ & N3). rewrite app_nil_r in N3.
        exists ord, l', (c_index c1). split; [reflexivity|]. split; [exists []; rewrite app_nil_r; reflexivity|]. split; [exact F1|].
        split; [exact N3|]. split; [rewrite in_app_iff in Ei; tauto|]. split.
        + rewrite G5. rewrite Hzl. destruct (Z.leb_spec cap (zlen (l' ++ [(kt, vt)]))) as [h|h].
          2: { exfalso. unfold zlen in *. rewrite app_length in *. cbn in *. lia. }
          unfold ix_erase. rewrite Hk'.
          assert (HPm : forall (m m' : list (K * Z)), Permutation m m' -> Permutation (filter (fun p => negb (keqb kt (fst p))) m) (filter (fun p => negb (keqb kt (fst p))) m')).
          { induction 1 as [|x m m' HP IH|x y m|m m' m'' HP IH HP2 IH2]; cbn.
            - constructor.
            - destruct (negb _); [constructor|]; assumption.
            - destruct (negb (keqb kt (fst x))), (negb (keqb kt (fst y))); first [apply perm_swap | apply Permutation_refl].
            - eapply Permutation_trans; eassumption. }
          eapply Permutation_trans; [apply HPm; exact R10|]. rewrite map_app, combine_app by (rewrite map_length; lia). cbn [map fst combine].
          rewrite filter_split; [rewrite app_nil_r; apply Permutation_refl| |cbn; tauto].
          rewrite map_fst_combine by (rewrite map_length; lia). exact N1.
        + replace (Z.to_nat cap) with (Datatypes.S (length l')) by (unfold zlen in R2; rewrite app_length in R2; cbn in R2; lia).
          cbn [firstn]. rewrite firstn_app, firstn_all, Nat.sub_diag. cbn. rewrite app_nil_r. reflexivity.
      - rewrite app_assoc in Eo. apply app_inj_tail in Eo. destruct Eo as [<- <-].
        exists used, l, (c_index c1). split; [reflexivity|]. split; [exists free'; reflexivity|]. split; [exact R8|]. split; [exact R9|]. split; [exact Ei|].
        assert (zlen l < cap). { unfold zlen in *. rewrite !app_length in R2. cbn in R2. lia. }
        split.
        + rewrite G5, Hzl. destruct (Z.leb_spec cap (zlen l)); [lia|]. exact R10.
        + apply firstn_all2. unfold zlen in *. cbn. lia. }
    destruct HC as (used' & l' & idx' & -> & (free' & Eor) & C1 & C2 & C3 & C4 & ->).
    constructor. exists (t :: used'), free', None. proj. cbn [app]. rewrite <- Eor. rewrite list_upd_zlen.
    split; [unfold zlen in *; lia|]. split; [unfold zlen in *; rewrite app_length in R2; cbn [length] in *; lia|].
    split; [constructor; assumption|]. split; [apply dll_upd_val; assumption|]. split; [left; reflexivity|].
    split; [exact G6|]. split; [exact G7|]. split.
    { constructor.
      - eexists. rewrite znth_list_upd, Z.eqb_refl by assumption. split; [reflexivity|]. cbn. auto.
      - apply Forall2_upd_other; [|assumption|].
        + intros h. apply M1. rewrite Eor, in_app_iff. auto.
        + apply (holds_same (c_ents c)); [split; assumption|exact C1]. }
    split; [cbn [map fst]; constructor; assumption|].
    cbn [map fst combine]. constructor. exact C4.
Qed.

Theorem clear_rep : rep (clear dk dv cap) [].
Proof.
  constructor. exists [], (map Z.of_nat (seq 0 (Z.to_nat cap))), (Some cap).
  unfold clear. cbn [c_ents c_index c_head c_tail app].
  assert (Hlen : zlen (map (clear_entry dk dv cap) (seq 0 (Z.to_nat cap))) = cap) by (unfold zlen; rewrite map_length, seq_length; lia).
  split; [exact Hlen|]. split; [unfold zlen; rewrite map_length, seq_length; lia|].
  split. { apply FinFun.Injective_map_NoDup; [intros a b; lia|apply seq_NoDup]. }
  assert (HD : forall m i, (i + m = Z.to_nat cap)%nat ->
    dll (map (clear_entry dk dv cap) (seq 0 (Z.to_nat cap))) (if Nat.ltb 0 i then Some (Z.of_nat i - 1) else None) (map Z.of_nat (seq i m)) (Some cap)).
  { induction m as [|m IH]; intros i Hi; cbn [seq map dll]; [exact I|]. split.
    - exists (clear_entry dk dv cap i). split.
      + unfold znth. destruct (Z.ltb_spec (Z.of_nat i) 0); [lia|]. rewrite Nat2Z.id.
        rewrite nth_error_map. rewrite (nth_error_nth' _ 0%nat) by (rewrite seq_length; lia). cbn. rewrite seq_nth by lia. reflexivity.
      + split; [reflexivity|]. unfold clear_entry. cbn [n_succ]. destruct (Z.ltb_spec (Z.of_nat i) cap); [|lia].
        destruct m; cbn [seq map hd_opt]; f_equal; lia.
    - specialize (IH (Datatypes.S i) ltac:(lia)). cbn [Nat.ltb Nat.leb] in IH. replace (Z.of_nat (Datatypes.S i) - 1) with (Z.of_nat i) in IH by lia. exact IH. }
  split; [apply (HD (Z.to_nat cap) 0%nat); lia|]. split; [right; reflexivity|].
  split. { destruct (Z.to_nat cap) eqn:E; [lia|]. reflexivity. }
  split. { replace (Z.to_nat cap) with (Z.to_nat (cap - 1) + 1)%nat by lia. rewrite seq_app, map_app, last_opt_app. cbn. f_equal. lia. }
  split; [constructor|]. split; [constructor|]. constructor.
Qed.
End Facts.
