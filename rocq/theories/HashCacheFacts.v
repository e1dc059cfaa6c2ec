(** LFVM's hash cache: its structure, what its critical sections do, and its threads. *)
From Verif Require Import Base Lru LruFacts HashCache ArithFacts MemFacts JumpFacts SimBase.
From Coq Require Import Lia ZArith List Bool Permutation.
Import ListNotations.

Section Facts.
Context {K V : Type}.
Variable keqb : K -> K -> bool.
Hypothesis keqb_eq : forall a b, keqb a b = true <-> a = b.
Variables (dk : K) (dv : V).
Variable hash : K -> res V.
Variable f : K -> V.
Variable valid : K -> Prop.
Hypothesis hash_ok : forall k, valid k -> hash k = Ok (f k).
Hypothesis dk_ok : valid dk.
Variable cap : Z.
Hypothesis cap2 : 2 <= cap.
Notation lru := (lru (K:=K) (V:=V)).
Notation hcache := (hcache K V).

Record hrep (c : hcache) (used : list Z) (l : list (K * V)) : Prop := mkHRep {
  hr_cap : zlen (c_ents (h_list c)) = cap;
  hr_nodup : NoDup used;
  hr_next : zlen used = h_next c;
  hr_max : 1 <= h_next c <= cap;
  hr_range : Forall (fun i => 0 <= i < h_next c) used;
  hr_dll : dll (c_ents (h_list c)) None used None;
  hr_head : c_head (h_list c) = hd_opt used None;
  hr_tail : c_tail (h_list c) = last_opt used None;
  hr_holds : Forall2 (holds (c_ents (h_list c))) used l;
  hr_keys : NoDup (map fst l);
  hr_index : Permutation (c_index (h_list c)) (combine (map fst l) used);
  hr_values : Forall (fun kv => snd kv = f (fst kv)) l
}.

Lemma look_rep : forall c used l k, hrep c used l ->
  (section_look keqb k c = Ok (None, c) /\ ~ In k (map fst l)) \/
  (exists c' i u1 u2 l1 l2 v, section_look keqb k c = Ok (Some i, c') /\ used = u1 ++ i :: u2 /\ l = l1 ++ (k, v) :: l2 /\
     length u1 = length l1 /\ length u2 = length l2 /\ hrep c' (i :: u1 ++ u2) ((k, v) :: l1 ++ l2)).
Proof.
  intros c used l k [R1 R2 R3 R3b R4 R5 R6 R7 R8 R9 R10 R11].
  pose proof (Forall2_length _ _ _ R8) as HLen. destruct (idx_keys _ _ _ HLen R9 R10) as (K1 & K2 & K3).
  unfold section_look. destruct (ix_find keqb k (c_index (h_list c))) as [i |] eqn:Ei.
  - right. destruct (index_split keqb keqb_eq _ _ _ _ _ HLen R9 R10 Ei) as (u1 & u2 & l1 & l2 & v & -> & -> & E1 & E2).
    destruct (touch_ok cap (h_list c) u1 i u2 R1 R2 R5 R6 R7) as (c' & T1 & T2 & T3 & T4 & T5 & T6).
    rewrite T1. cbn [rbind]. exists (mkHC c' (h_next c)), i, u1, u2, l1, l2, v.
    split; [reflexivity |]. split; [reflexivity |]. split; [reflexivity |]. split; [exact E1 |]. split; [exact E2 |].
    destruct (NoDup_mid _ _ _ R2) as (M1 & M2 & M3). rewrite map_app in R9. cbn [map fst] in R9. destruct (NoDup_mid _ _ _ R9) as (N1 & N2 & N3).
    destruct (Forall2_split _ _ _ _ _ _ _ E1 R8) as (F1 & F2 & F3).
    apply Forall_app in R4. destruct R4 as [R4a R4b]. inversion R4b as [| ? ? R4c R4d]; subst.
    apply Forall_app in R11. destruct R11 as [R11a R11b]. inversion R11b as [| ? ? R11c R11d]; subst.
    constructor; cbn [h_list h_next].
    + destruct T3 as [T3 _]. unfold zlen in *. lia.
    + constructor; [rewrite in_app_iff; tauto | exact M3].
    + unfold zlen in *. rewrite app_length in R3. cbn [length] in *. rewrite app_length. lia.
    + exact R3b.
    + constructor; [exact R4c | apply Forall_app; split; assumption].
    + exact T2.
    + exact T5.
    + exact T6.
    + assert (X : Forall2 (holds (c_ents c')) [i] [(k, v)]) by (apply (holds_same (c_ents (h_list c))); [exact T3 | constructor; [exact F2 | constructor]]).
      constructor; [inversion X; assumption |]. apply Forall2_app; apply (holds_same (c_ents (h_list c))); assumption.
    + cbn [map fst]. rewrite map_app. constructor; [rewrite in_app_iff; tauto | exact N3].
    + rewrite T4. eapply Permutation_trans; [exact R10 |]. cbn [map fst]. rewrite !map_app. cbn [map fst].
      rewrite combine_app by (rewrite map_length; lia). cbn [combine]. rewrite combine_app by (rewrite map_length; lia).
      apply Permutation_sym, Permutation_middle.
    + constructor; [exact R11c | apply Forall_app; split; assumption].
  - left. split; [reflexivity |]. intros h. rewrite <- K2 in h. revert h. apply (ix_find_none keqb keqb_eq). exact Ei.
Qed.

Lemma in_firstn : forall A n (x : A) l, In x (firstn n l) -> In x l.
Proof. intros A n x l Hx. rewrite <- (firstn_skipn n l). apply in_or_app. left. exact Hx. Qed.
Lemma in_firstn_le : forall A n m (x : A) l, (n <= m)%nat -> In x (firstn n l) -> In x (firstn m l).
Proof. intros A n m x l Hm Hx. replace n with (Nat.min n m) in Hx by lia. rewrite <- firstn_firstn in Hx. apply in_firstn in Hx. exact Hx. Qed.
(** linking a written entry in front *)
Lemma link_ok : forall (E : list (Lru.entry (K:=K) (V:=V))) i k v h r, zlen E = cap -> 0 <= i < cap -> dll E None (h :: r) None -> ~ In i (h :: r) -> ~ In h r ->
  exists eh, let E1 := list_upd E (Z.to_nat i) (mkEntry k v None (Some h)) in
    znth E1 h = Some eh /\
    let E2 := list_upd E1 (Z.to_nat h) (mkEntry (n_key eh) (n_val eh) (Some i) (n_succ eh)) in
    zlen E2 = cap /\ dll E2 None (i :: h :: r) None /\ holds E2 i (k, v) /\
    forall l, Forall2 (holds E) (h :: r) l -> Forall2 (holds E2) (h :: r) l.
Proof.
  intros E i k v h r HL Hi HD Hn Hh.
  set (E1 := list_upd E (Z.to_nat i) (mkEntry k v None (Some h))).
  assert (D1 : dll E1 None (h :: r) None) by (apply dll_upd; [exact HD | exact Hn | lia]).
  assert (L1 : zlen E1 = cap) by (unfold E1; rewrite list_upd_zlen; exact HL).
  destruct (dll_in _ _ _ _ h D1 ltac:(left; reflexivity)) as (eh & Heh). exists eh. cbv zeta. fold E1.
  assert (Hir : i <> h) by (intros ->; apply Hn; left; reflexivity).
  pose proof (znth_in _ _ _ Heh) as Hhr.
  split; [exact Heh |]. split; [rewrite list_upd_zlen; exact L1 |].
  assert (Ei : znth E1 i = Some (mkEntry k v None (Some h))) by (unfold E1; rewrite znth_list_upd, Z.eqb_refl by lia; reflexivity).
  assert (Ei2 : znth (list_upd E1 (Z.to_nat h) (mkEntry (n_key eh) (n_val eh) (Some i) (n_succ eh))) i = Some (mkEntry k v None (Some h))).
  { rewrite znth_list_upd by exact Hhr. destruct (Z.eqb_spec i h); [contradiction | exact Ei]. }
  split; [| split].
  - change (i :: h :: r) with ([i] ++ (h :: r)). apply dll_app. split.
    + cbn [dll hd_opt]. split; [| exact Logic.I]. eexists. split; [exact Ei2 |]. split; reflexivity.
    + cbn [last_opt]. eapply dll_set_first; [exact Heh | exact D1 | exact Hh].
  - eexists. split; [exact Ei2 |]. split; reflexivity.
  - intros l HF. apply (holds_same E1); [apply same_kv_upd; exact Heh |]. apply Forall2_upd_other; [exact Hn | lia | exact HF].
Qed.

Lemma erase_perm : forall kt (m m' : list (K * Z)), Permutation m m' -> Permutation (ix_erase keqb kt m) (ix_erase keqb kt m').
Proof.
  intros kt m m' HP. unfold ix_erase. induction HP as [|x m m' HP IH|x y m|m m' m'' HP IH HP2 IH2]; cbn.
  - constructor.
  - destruct (negb _); [constructor |]; assumption.
  - destruct (negb (keqb kt (fst x))), (negb (keqb kt (fst y))); first [apply perm_swap | apply Permutation_refl].
  - eapply Permutation_trans; eassumption.
Qed.

(** what an insertion does to the order *)
Inductive inserted (k : K) : list Z -> list (K * V) -> list Z -> list (K * V) -> Prop :=
| ins_present used l : In k (map fst l) -> inserted k used l used l
| ins_free used l j : ~ In k (map fst l) -> inserted k used l (j :: used) ((k, f k) :: l)
| ins_evict used l t x : ~ In k (map fst (l ++ [x])) -> zlen (used ++ [t]) = cap -> length used = length l ->
    inserted k (used ++ [t]) (l ++ [x]) (t :: used) ((k, f k) :: l).

Lemma insert_rep_h : forall c used l k, hrep c used l ->
  exists c' used' l', section_insert keqb k (f k) c = Ok c' /\ hrep c' used' l' /\ inserted k used l used' l'.
Proof.
  intros c used l k HR. pose proof HR as [R1 R2 R3 R3b R4 R5 R6 R7 R8 R9 R10 R11].
  pose proof (Forall2_length _ _ _ R8) as HLen. destruct (idx_keys _ _ _ HLen R9 R10) as (K1 & K2 & K3).
  unfold section_insert. destruct (ix_find keqb k (c_index (h_list c))) as [i |] eqn:Ei.
  { exists c, used, l. split; [reflexivity |]. split; [exact HR |]. apply ins_present. rewrite <- K2.
    destruct (in_dec (fun a b => match bool_dec (keqb a b) true with left e => left (proj1 (keqb_eq a b) e) | right n => right (fun e => n (proj2 (keqb_eq a b) e)) end) k (map fst (c_index (h_list c)))) as [h | h]; [exact h |].
    apply (ix_find_none keqb keqb_eq) in h. congruence. }
  apply (ix_find_none keqb keqb_eq) in Ei. rewrite K2 in Ei.
  unfold getFree. destruct (Z.ltb_spec (h_next c) (zlen (c_ents (h_list c)))) as [L | L].
  - (* a free entry *)
    cbn [rbind h_list h_next]. set (i := h_next c) in *.
    assert (He : exists e, znth (c_ents (h_list c)) i = Some e).
    { unfold znth. destruct (Z.ltb_spec i 0); [lia |]. destruct (nth_error (c_ents (h_list c)) (Z.to_nat i)) eqn:En; [eauto |].
      apply nth_error_None in En. unfold zlen in *. lia. }
    destruct He as (e & He). rewrite (ent_ok _ _ _ He). cbn [rbind].
    destruct used as [| h r]; [unfold zlen in *; cbn in *; lia |].
    assert (Hni : ~ In i (h :: r)). { intros h'. rewrite Forall_forall in R4. apply R4 in h'. lia. }
    apply NoDup_cons_iff in R2. destruct R2 as [R2a R2b]. cbn [hd_opt] in R6.
    destruct (link_ok (c_ents (h_list c)) i k (f k) h r R1 ltac:(lia) R5 Hni R2a) as (eh & Heh & A1 & A2 & A3 & A4). cbv zeta in *.
    cbn [put c_head]. rewrite R6. erewrite set_pred_ok; [| cbn [put c_ents]; exact Heh]. cbn [rbind].
    exists (mkHC (mkLru (list_upd (list_upd (c_ents (h_list c)) (Z.to_nat i) (mkEntry k (f k) None (Some h))) (Z.to_nat h) (mkEntry (n_key eh) (n_val eh) (Some i) (n_succ eh)))
        ((k, i) :: c_index (h_list c)) (Some i) (c_tail (h_list c))) (i + 1)), (i :: h :: r), ((k, f k) :: l).
    split; [reflexivity |]. split; [| apply ins_free; exact Ei].
    constructor; cbn [h_list h_next c_ents c_index c_head c_tail].
    + exact A1.
    + constructor; [exact Hni | constructor; assumption].
    + unfold zlen in *. cbn [length] in *. lia.
    + lia.
    + constructor; [lia |]. eapply Forall_impl; [| exact R4]. intros; cbn beta in *; lia.
    + exact A2.
    + reflexivity.
    + rewrite R7. reflexivity.
    + constructor; [exact A3 | apply A4; exact R8].
    + cbn [map fst]. constructor; assumption.
    + cbn [map fst combine]. constructor. exact R10.
    + constructor; [reflexivity | exact R11].
  - (* the last entry is reused *)
    assert (Hn : h_next c = cap) by lia.
    destruct (snoc_cases used) as [-> | (u & t & ->)]; [unfold zlen in *; cbn in *; lia |].
    destruct (snoc_cases l) as [-> | (l0 & [kt vt] & ->)]; [rewrite app_length in HLen; cbn in HLen; lia |].
    assert (HL0 : length u = length l0) by (rewrite !app_length in HLen; cbn in HLen; lia).
    rewrite last_opt_snoc in R7. destruct (snoc_cases u) as [-> | (u0 & p & ->)]; [unfold zlen in *; cbn in *; lia |].
    apply dll_app in R5. destruct R5 as [D1 ((e & He & Hep & Hes) & _)]. rewrite last_opt_snoc in Hep. cbn [hd_opt] in D1.
    destruct (dll_in _ _ _ _ p D1 ltac:(rewrite in_app_iff; cbn; auto)) as (ep & Hp).
    destruct (NoDup_mid _ _ _ R2) as (N1 & _ & N3). rewrite app_nil_r in N3. destruct (NoDup_mid _ _ _ N3) as (N4 & _ & N5).
    assert (Hpt : p <> t). { intros ->. apply N1. rewrite in_app_iff. cbn. auto. }
    rewrite R7, (ent_ok _ _ _ He). cbn [rbind]. rewrite Hep.
    change (c_tail (set_tail (Some p) (h_list c))) with (Some p).
    rewrite (set_succ_ok (set_tail (Some p) (h_list c)) p ep None Hp). cbn [rbind].
    change (put (set_tail (Some p) (h_list c)) p (mkEntry (n_key ep) (n_val ep) (n_pred ep) None))
      with (mkLru (list_upd (c_ents (h_list c)) (Z.to_nat p) (mkEntry (n_key ep) (n_val ep) (n_pred ep) None)) (c_index (h_list c)) (c_head (h_list c)) (Some p)).
    set (E1 := list_upd (c_ents (h_list c)) (Z.to_nat p) (mkEntry (n_key ep) (n_val ep) (n_pred ep) None)).
    pose proof (znth_in _ _ _ Hp) as Hpr. pose proof (znth_in _ _ _ He) as Htr.
    assert (He1 : znth E1 t = Some e). { unfold E1. rewrite znth_list_upd by exact Hpr. destruct (Z.eqb_spec t p); [congruence | exact He]. }
    assert (De1 : dll E1 None (u0 ++ [p]) None) by (eapply dll_set_last; [exact Hp | exact D1 | exact N4]).
    assert (HE1 : zlen E1 = cap) by (unfold E1; rewrite list_upd_zlen; exact R1).
    assert (SK1 : same_kv (c_ents (h_list c)) E1) by (apply same_kv_upd; exact Hp).
    erewrite (ent_ok _ t e); [| exact He1]. cbn [rbind h_list h_next]. unfold set_index. cbn [c_ents c_index c_head c_tail].
    erewrite (ent_ok _ t e); [| exact He1]. cbn [rbind].
    destruct (u0 ++ [p]) as [| h r] eqn:El; [destruct u0; discriminate |].
    assert (Hh : c_head (h_list c) = Some h). { rewrite R6. reflexivity. }
    apply NoDup_cons_iff in N3. destruct N3 as [N3a N3b].
    destruct (link_ok E1 t k (f k) h r HE1 ltac:(lia) De1 N1 N3a) as (eh & Heh & A1 & A2 & A3 & A4). cbv zeta in *.
    unfold put at 1 2. cbn [c_ents c_index c_head c_tail]. rewrite Hh.
    erewrite set_pred_ok; [| cbn [c_ents]; exact Heh]. cbn [rbind].
    destruct (Forall2_split _ _ _ _ _ _ _ HL0 R8) as (F1 & (e' & He' & Hk' & Hv') & _).
    rewrite He in He'. injection He' as <-. cbn [fst] in Hk'.
    eexists. exists (t :: h :: r), ((k, f k) :: l0). split; [reflexivity |].
    assert (Hk0 : ~ In k (map fst l0)). { intros h'. apply Ei. rewrite map_app, in_app_iff. auto. }
    split; [| apply (ins_evict k (h :: r) l0 t (kt, vt)); [exact Ei | lia | exact HL0]].
    unfold put, set_head. constructor; cbn [h_list h_next c_ents c_index c_head c_tail].
    + exact A1.
    + constructor; [exact N1 | constructor; assumption].
    + unfold zlen in *. rewrite app_length in R3. cbn [length] in *. lia.
    + lia.
    + apply Forall_app in R4. destruct R4 as [R4a R4b]. inversion R4b; subst. constructor; assumption.
    + exact A2.
    + reflexivity.
    + cbn [last_opt]. change (last_opt r (Some h)) with (last_opt (h :: r) (Some t)). rewrite <- El, last_opt_snoc. reflexivity.
    + constructor; [exact A3 |]. apply A4. apply (holds_same (c_ents (h_list c))); assumption.
    + cbn [map fst]. constructor; [exact Hk0 |]. rewrite map_app in R9. cbn [map] in R9. destruct (NoDup_mid _ _ _ R9) as (_ & _ & X). rewrite app_nil_r in X. exact X.
    + cbn [map fst combine]. constructor. eapply Permutation_trans; [apply erase_perm; exact R10 |]. rewrite Hk'.
      rewrite map_app, combine_app by (rewrite map_length; lia). cbn [map fst combine]. unfold ix_erase.
      rewrite (filter_split keqb keqb_eq); [rewrite app_nil_r; apply Permutation_refl | | cbn; tauto].
      rewrite map_fst_combine by (rewrite map_length; lia). rewrite map_app in R9. cbn [map fst] in R9. destruct (NoDup_mid _ _ _ R9) as (X & _ & _). exact X.
    + constructor; [reflexivity |]. apply Forall_app in R11. apply R11.
Qed.

(** ** A new cache *)
Definition capacity_of (n : Z) : Z := if n <? 2 then 2 else n.
Lemma new_rep : forall n, capacity_of n = cap -> exists c, newHashCache keqb dk dv hash n = Ok c /\ hrep c [0] [(dk, f dk)].
Proof.
  intros n Hn. unfold newHashCache. fold (capacity_of n). rewrite Hn. set (E := repeat (mkEntry dk dv None None) (Z.to_nat cap)).
  assert (LE : zlen E = cap) by (unfold zlen, E; rewrite repeat_length; lia).
  unfold getFree. cbn [h_list h_next c_ents]. rewrite (proj2 (Z.ltb_lt 0 (zlen E))) by lia. cbn [rbind h_list h_next].
  rewrite (hash_ok dk dk_ok). cbn [rbind]. unfold set_tail, set_head. cbn [c_ents c_index c_head c_tail].
  assert (E0 : znth E 0 = Some (mkEntry dk dv None None)).
  { unfold znth. cbn [Z.ltb Z.compare Z.to_nat]. unfold E. destruct (Z.to_nat cap) eqn:Ec; [lia | reflexivity]. }
  erewrite ent_ok; [| exact E0]. cbn [rbind n_key n_val n_pred n_succ]. eexists. split; [reflexivity |]. unfold put, set_index.
  assert (E1 : znth (list_upd E (Z.to_nat 0) (mkEntry dk (f dk) None None)) 0 = Some (mkEntry dk (f dk) None None))
    by (rewrite znth_list_upd, Z.eqb_refl by lia; reflexivity).
  constructor; cbn [h_list h_next c_ents c_index c_head c_tail].
  - rewrite list_upd_zlen. exact LE.
  - constructor; [intros [] | constructor].
  - reflexivity.
  - lia.
  - constructor; [lia | constructor].
  - cbn [dll hd_opt]. split; [| exact Logic.I]. eexists. split; [exact E1 |]. split; reflexivity.
  - reflexivity.
  - reflexivity.
  - constructor; [| constructor]. eexists. split; [exact E1 |]. split; reflexivity.
  - cbn. constructor; [intros [] | constructor].
  - cbn. apply Permutation_refl.
  - constructor; [reflexivity | constructor].
Qed.

(** ** One thread *)
Lemma getHash_rep : forall c used l k, valid k -> hrep c used l ->
  exists c' used' l', getHash keqb hash k c = Ok (f k, c') /\ hrep c' used' l'.
Proof.
  intros c used l k Hk HR. unfold getHash. destruct (look_rep c used l k HR) as [(E & Hn) | (c' & i & u1 & u2 & l1 & l2 & v & E & -> & -> & L1 & L2 & HR')].
  - rewrite E. cbn [rbind]. rewrite (hash_ok k Hk). cbn [rbind]. destruct (insert_rep_h c used l k HR) as (c' & u' & l' & E' & R' & _).
    rewrite E'. cbn [rbind]. exists c', u', l'. split; [reflexivity | exact R'].
  - rewrite E. cbn [rbind]. unfold read_entry. pose proof (hr_holds _ _ _ HR') as HF. inversion HF as [| ? ? ? ? (e & He & Hek & Hev) _]; subst.
    rewrite (ent_ok _ _ _ He). cbn [rbind]. pose proof (hr_values _ _ _ HR') as HV. inversion HV as [| ? ? Hv _]; subst.
    cbn [fst snd] in *. exists c', (i :: u1 ++ u2), ((k, v) :: l1 ++ l2). rewrite Hev, Hv. split; [reflexivity | rewrite <- Hv; exact HR'].
Qed.

(** ** Threads *)
(** the order of the entries with their keys *)
Definition order (used : list Z) (l : list (K * V)) : list (Z * K) := combine used (map fst l).
(** [x] is among the first [n + 1] *)
Definition within (n : nat) (x : Z * K) (z : list (Z * K)) : Prop := In x (firstn (S n) z).
Lemma within_weak : forall n x z, within n x z -> forall y, within (S n) x (y :: z).
Proof. intros n x z Hx y. unfold within in *. cbn [firstn]. right. exact Hx. Qed.
Lemma within_move : forall n x a y b, within n x (a ++ y :: b) -> within (S n) x (y :: a ++ b).
Proof.
  intros n x a y b Hx. unfold within in *. rewrite firstn_app in Hx. apply in_app_or in Hx. cbn [firstn].
  destruct Hx as [Hx | Hx].
  - right. change (In x (firstn (S n) (a ++ b))). rewrite firstn_app. apply in_or_app. left. exact Hx.
  - destruct (S n - length a)%nat as [| m] eqn:Em; [destruct Hx |]. cbn [firstn] in Hx. destruct Hx as [Hx | Hx]; [left; exact Hx |].
    right. change (In x (firstn (S n) (a ++ b))). rewrite firstn_app, Em. apply in_or_app. right. apply (in_firstn_le _ m (S m)); [lia | exact Hx].
Qed.
Lemma within_evict : forall n x z y, within n x (z ++ [y]) -> (S n <= length z)%nat -> forall w, within (S n) x (w :: z).
Proof.
  intros n x z y Hx Hn w. apply within_weak. unfold within in *. rewrite firstn_app in Hx.
  replace (S n - length z)%nat with 0%nat in Hx by lia. rewrite firstn_O, app_nil_r in Hx. exact Hx.
Qed.

Fixpoint since (t : nat) (es : list (hevent K V)) : nat :=
  match es with
  | [] => 0
  | HSection u :: es => if Nat.eqb u t then 0 else S (since t es)
  | _ :: es => since t es
  end.

Definition phase_ok (c : hcache) (used : list Z) (l : list (K * V)) (n : nat) (p : hphase K V) : Prop :=
  match p with
  | HIdle => True
  | HEnter k | HMiss k => valid k
  | HFound k p => valid k /\ exists i, p = Some i /\ 0 <= i < cap /\ (Z.of_nat n < cap -> within n (i, k) (order used l))
  | HMade k v | HDone k v => valid k /\ v = f k
  end.
Definition inv (es : list (hevent K V)) (s : hstate K V) : Prop :=
  exists used l, hrep (hs_cache s) used l /\
  forall t, Forall valid (ht_todo (hs_threads s t)) /\ phase_ok (hs_cache s) used l (since t es) (ht_phase (hs_threads s t)).

Lemma order_app : forall u1 i u2 l1 (kv : K * V) l2, length u1 = length l1 ->
  order (u1 ++ i :: u2) (l1 ++ kv :: l2) = order u1 l1 ++ (i, fst kv) :: order u2 l2.
Proof. intros. unfold order. rewrite map_app, combine_app by (rewrite map_length; lia). reflexivity. Qed.
Lemma order_app2 : forall u1 u2 (l1 l2 : list (K * V)), length u1 = length l1 -> order (u1 ++ u2) (l1 ++ l2) = order u1 l1 ++ order u2 l2.
Proof. intros. unfold order. rewrite map_app, combine_app by (rewrite map_length; lia). reflexivity. Qed.
Lemma order_length : forall u (l : list (K * V)), length u = length l -> length (order u l) = length u.
Proof. intros. unfold order. rewrite combine_length, map_length. lia. Qed.

(** the entry of a waiting thread sinks by at most one in a section *)
Lemma sink_insert : forall k used l used' l' n x, inserted k used l used' l' -> length used = length l ->
  Z.of_nat (S n) < cap -> within n x (order used l) -> within (S n) x (order used' l').
Proof.
  intros k used l used' l' n x Hi HL Hn Hx. destruct Hi as [used l _ | used l j _ | used l t y _ Hc HL'].
  - unfold within in *. apply (in_firstn_le _ (S n)); [lia | exact Hx].
  - apply within_weak. exact Hx.
  - change (order (t :: used) ((k, f k) :: l)) with ((t, k) :: order used l).
    rewrite order_app in Hx by exact HL'. cbn [order combine map] in Hx. eapply within_evict; [exact Hx |].
    rewrite order_length by exact HL'. unfold zlen in Hc. rewrite app_length in Hc. cbn in Hc. lia.
Qed.

Lemma hupd_same : forall ts t (x : hthread K V), hupd ts t x t = x.
Proof. intros. unfold hupd. rewrite Nat.eqb_refl. reflexivity. Qed.
Lemma hupd_other : forall ts t u (x : hthread K V), u <> t -> hupd ts t x u = ts u.
Proof. intros ts t u x Hn. unfold hupd. destruct (Nat.eqb_spec u t); [contradiction | reflexivity]. Qed.
Lemma since_section_other : forall t u es, u <> t -> since t (HSection u :: es) = S (since t es).
Proof. intros t u es Hn. cbn. destruct (Nat.eqb_spec u t); [contradiction | reflexivity]. Qed.
Lemma since_section_same : forall t es, since t (HSection t :: es) = O.
Proof. intros. cbn. rewrite Nat.eqb_refl. reflexivity. Qed.

Definition shown (e : option (hevent K V)) (es : list (hevent K V)) : list (hevent K V) := match e with Some e => e :: es | None => es end.
Lemma step_inv : forall es s e s', inv es s -> hstep keqb hash s e s' -> inv (shown e es) s'.
Proof.
  intros es s e s' (used & l & HR & HT) Hs. pose proof (Forall2_length _ _ _ (hr_holds _ _ _ HR)) as HLen.
  destruct Hs as [c ts t k rest Ht | c ts t k rest p c' Ht Hl | c ts t k p rest v Ht Hr | c ts t k rest v Ht Hh | c ts t k v rest c' Ht Hi | c ts t k v rest Ht];
    cbn [hs_cache hs_threads] in *; cbn [shown].
  - exists used, l. split; [exact HR |]. intros u. destruct (HT u) as [H1 H2]. cbn [hs_cache hs_threads since] in *. destruct (Nat.eq_dec u t) as [-> | Hn].
    + rewrite hupd_same. rewrite Ht in H1. cbn [ht_todo ht_phase phase_ok] in *. inversion H1; subst. split; assumption.
    + rewrite hupd_other by exact Hn. split; assumption.
  - destruct (look_rep c used l k HR) as [(E & Hnk) | (c1 & i & u1 & u2 & l1 & l2 & v & E & -> & -> & L1 & L2 & HR')]; rewrite E in Hl; injection Hl as <- <-.
    + exists used, l. split; [exact HR |]. intros u. destruct (HT u) as [H1 H2]. cbn [hs_cache hs_threads] in *. destruct (Nat.eq_dec u t) as [-> | Hn].
      * rewrite hupd_same. rewrite Ht in H1, H2. cbn [ht_todo ht_phase phase_ok] in *. split; assumption.
      * rewrite hupd_other by exact Hn. rewrite since_section_other by congruence. split; [exact H1 |].
        destruct (ht_phase (ts u)) as [| k' | k' p' | k' | k' v' | k' v']; cbn [phase_ok] in *; try assumption.
        destruct H2 as (Hv & j & Hj & Hr & Hw). split; [exact Hv |]. exists j. split; [exact Hj |]. split; [exact Hr |].
        intros Hc. unfold within in *. apply (in_firstn_le _ (S (since u es))); [lia | apply Hw; lia].
    + exists (i :: u1 ++ u2), ((k, v) :: l1 ++ l2). split; [exact HR' |]. intros u. destruct (HT u) as [H1 H2]. cbn [hs_cache hs_threads] in *. destruct (Nat.eq_dec u t) as [-> | Hn].
      * rewrite hupd_same, since_section_same. rewrite Ht in H1, H2. cbn [ht_todo ht_phase phase_ok] in *. split; [exact H1 |]. split; [exact H2 |].
        exists i. split; [reflexivity |]. split.
        { pose proof (hr_range _ _ _ HR') as HF. inversion HF; subst. pose proof (hr_max _ _ _ HR'). lia. }
        intros _. left. reflexivity.
      * rewrite hupd_other by exact Hn. rewrite since_section_other by congruence. split; [exact H1 |].
        destruct (ht_phase (ts u)) as [| k' | k' p' | k' | k' v' | k' v']; cbn [phase_ok] in *; try assumption.
        destruct H2 as (Hv & j & Hj & Hr & Hw). split; [exact Hv |]. exists j. split; [exact Hj |]. split; [exact Hr |].
        intros Hc. specialize (Hw ltac:(lia)). rewrite order_app in Hw by exact L1. cbn [fst] in Hw. apply within_move in Hw.
        change (order (i :: u1 ++ u2) ((k, v) :: l1 ++ l2)) with ((i, k) :: order (u1 ++ u2) (l1 ++ l2)). rewrite order_app2 by exact L1. exact Hw.
  - exists used, l. split; [exact HR |]. intros u. destruct (HT u) as [H1 H2]. cbn [hs_cache hs_threads since] in *. destruct (Nat.eq_dec u t) as [-> | Hn].
    + rewrite hupd_same. rewrite Ht in H1. cbn [ht_todo ht_phase phase_ok] in *. split; [exact H1 | exact Logic.I].
    + rewrite hupd_other by exact Hn. split; assumption.
  - exists used, l. split; [exact HR |]. intros u. destruct (HT u) as [H1 H2]. cbn [hs_cache hs_threads since] in *. destruct (Nat.eq_dec u t) as [-> | Hn].
    + rewrite hupd_same. rewrite Ht in H1, H2. cbn [ht_todo ht_phase phase_ok] in *. split; [exact H1 |]. split; [exact H2 |].
      rewrite (hash_ok k H2) in Hh. injection Hh as <-. reflexivity.
    + rewrite hupd_other by exact Hn. split; assumption.
  - destruct (HT t) as [_ X]. rewrite Ht in X. cbn [ht_phase phase_ok] in X. destruct X as [Hk ->].
    destruct (insert_rep_h c used l k HR) as (c1 & used' & l' & E & HR' & HI). rewrite E in Hi. injection Hi as <-.
    exists used', l'. split; [exact HR' |]. intros u. destruct (HT u) as [H1 H2]. cbn [hs_cache hs_threads] in *. destruct (Nat.eq_dec u t) as [-> | Hn].
    + rewrite hupd_same. rewrite Ht in H1, H2. cbn [ht_todo ht_phase phase_ok] in *. split; assumption.
    + rewrite hupd_other by exact Hn. rewrite since_section_other by congruence. split; [exact H1 |].
      destruct (ht_phase (ts u)) as [| k' | k' p' | k' | k' v' | k' v']; cbn [phase_ok] in *; try assumption.
      destruct H2 as (Hv & j & Hj & Hr & Hw). split; [exact Hv |]. exists j. split; [exact Hj |]. split; [exact Hr |].
      intros Hc. eapply sink_insert; [exact HI | exact HLen | exact Hc |]. apply Hw. lia.
  - exists used, l. split; [exact HR |]. intros u. destruct (HT u) as [H1 H2]. cbn [hs_cache hs_threads since] in *. destruct (Nat.eq_dec u t) as [-> | Hn].
    + rewrite hupd_same. rewrite Ht in H1. cbn [ht_todo ht_phase phase_ok] in *. split; [exact H1 | exact Logic.I].
    + rewrite hupd_other by exact Hn. split; assumption.
Qed.

Variable n0 : Z.
Hypothesis n0_cap : capacity_of n0 = cap.
Lemma exec_inv : forall todo es s, (forall t, Forall valid (todo t)) -> hexec keqb dk dv hash n0 todo es s -> inv (rev es) s.
Proof.
  intros todo es s Hv Hx. induction Hx as [c Hc | es x y _ IH Hs | es x e y _ IH Hs].
  - destruct (new_rep n0 n0_cap) as (c' & E & R). rewrite E in Hc. injection Hc as <-. exists [0], [(dk, f dk)]. split; [exact R |].
    intros t. cbn. split; [apply Hv | exact Logic.I].
  - exact (step_inv _ _ _ _ IH Hs).
  - rewrite rev_app_distr. cbn [rev app]. exact (step_inv _ _ _ _ IH Hs).
Qed.

(** reading the entry while it is still there *)
Lemma read_within : forall c used l n i k, hrep c used l -> within n (i, k) (order used l) -> read_entry (Some i) c = Ok (f k).
Proof.
  intros c used l n i k HR Hw. unfold within in Hw. apply in_firstn in Hw. unfold order in Hw.
  pose proof (hr_holds _ _ _ HR) as HF. pose proof (hr_values _ _ _ HR) as HV. clear HR.
  assert (X : exists e, znth (c_ents (h_list c)) i = Some e /\ n_val e = f k).
  { revert Hw HV. induction HF as [| j [k' v'] u l (e & E1 & E2 & E3) HF IH]; intros Hw HV; cbn in Hw; [destruct Hw |].
    inversion HV; subst. destruct Hw as [[= -> ->] | Hw]; [| apply IH; assumption]. cbn [fst snd] in *. exists e. split; [exact E1 | congruence]. }
  destruct X as (e & E1 & E2). unfold read_entry. rewrite (ent_ok _ _ _ E1). cbn [rbind]. rewrite E2. reflexivity.
Qed.

Lemma returns_ok : forall todo es s, (forall t, Forall valid (todo t)) -> hexec keqb dk dv hash n0 todo es s ->
  forall es1 t k v es2, es = es1 ++ HReturn t k v :: es2 -> Z.of_nat (since t (rev es1)) < cap -> v = f k.
Proof.
  intros todo es s Hv Hx. induction Hx as [c Hc | es x y Hx IH Hs | es x e y Hx IH Hs]; intros es1 t k v es2 He Hn.
  - destruct es1; discriminate He.
  - exact (IH es1 t k v es2 He Hn).
  - destruct (snoc_cases es2) as [-> | (es2' & e' & ->)].
    + apply app_inj_tail in He. destruct He as [<- ->]. destruct (exec_inv _ _ _ Hv Hx) as (used & l & HR & HT).
      inversion Hs as [| | c ts u k' p rest v' Ht Hr | | | c ts u k' v' rest Ht]; subst; cbn [hs_cache hs_threads] in *;
        destruct (HT t) as [_ X]; rewrite Ht in X; cbn [ht_phase phase_ok] in X.
      * destruct X as (_ & i & -> & _ & Hw). rewrite (read_within _ _ _ _ _ _ HR (Hw Hn)) in Hr. injection Hr as <-. reflexivity.
      * apply X.
    + rewrite app_comm_cons, app_assoc in He. apply app_inj_tail in He. destruct He as [-> _]. exact (IH es1 t k v es2' eq_refl Hn).
Qed.

(** the number of sections entered *)
Fixpoint sections (es : list (hevent K V)) : nat :=
  match es with [] => 0 | HSection _ :: es => S (sections es) | _ :: es => sections es end.
Lemma sections_app : forall a b, sections (a ++ b) = (sections a + sections b)%nat.
Proof. induction a as [| [] a IH]; intros b; cbn; rewrite ?IH; reflexivity. Qed.
Lemma sections_rev : forall es, sections (rev es) = sections es.
Proof. induction es as [| e es IH]; [reflexivity |]. cbn [rev]. rewrite sections_app, IH. destruct e; cbn; lia. Qed.
Lemma since_bound : forall t a b, (since t (a ++ HSection t :: b) <= sections a)%nat.
Proof.
  intros t a b. induction a as [| e a IH]; cbn [app].
  - rewrite since_section_same. reflexivity.
  - destruct e; cbn [since sections]; try exact IH. destruct (Nat.eqb _ t); lia.
Qed.

(** steps of each thread *)
Lemma exec_moves : forall todo es s t, (forall t, Forall valid (todo t)) -> hexec keqb dk dv hash n0 todo es s ->
  hs_threads s t <> mkHT HIdle [] -> exists e s', hstep keqb hash s e s' /\ hs_threads s' t <> hs_threads s t.
Proof.
  intros todo es s t Hv Hx Hn. destruct (exec_inv _ _ _ Hv Hx) as (used & l & HR & HT). destruct (HT t) as [H1 H2].
  destruct s as [c ts]. cbn [hs_cache hs_threads] in *. destruct (ts t) as [p rest] eqn:Et. cbn [ht_phase ht_todo] in *.
  destruct p as [| k | k p | k | k v | k v]; cbn [phase_ok] in H2.
  - destruct rest as [| k rest]; [congruence |]. eexists _, _. split; [eapply hs_call; exact Et |]. cbn. rewrite hupd_same. discriminate.
  - destruct (look_rep c used l k HR) as [(E & _) | (c' & i & u1 & u2 & l1 & l2 & v & E & _)].
    + eexists _, _. split; [eapply hs_look; [exact Et | exact E] |]. cbn. rewrite hupd_same. discriminate.
    + eexists _, _. split; [eapply hs_look; [exact Et | exact E] |]. cbn. rewrite hupd_same. discriminate.
  - destruct H2 as (_ & i & -> & Hi & _).
    assert (X : exists e, znth (c_ents (h_list c)) i = Some e).
    { pose proof (hr_cap _ _ _ HR) as HC. unfold znth. destruct (Z.ltb_spec i 0); [lia |]. destruct (nth_error (c_ents (h_list c)) (Z.to_nat i)) eqn:En; [eauto |].
      apply nth_error_None in En. unfold zlen in *. lia. }
    destruct X as (e & He). eexists _, _. split.
    { eapply hs_read; [exact Et |]. unfold read_entry. rewrite (ent_ok _ _ _ He). cbn [rbind]. reflexivity. }
    cbn. rewrite hupd_same. discriminate.
  - eexists _, _. split; [eapply hs_make; [exact Et | apply hash_ok, H2] |]. cbn. rewrite hupd_same. discriminate.
  - destruct H2 as [_ ->]. destruct (insert_rep_h c used l k HR) as (c' & u' & l' & E & _).
    eexists _, _. split; [eapply hs_insert; [exact Et | exact E] |]. cbn. rewrite hupd_same. discriminate.
  - eexists _, _. split; [eapply hs_return; exact Et |]. cbn. rewrite hupd_same. discriminate.
Qed.
Lemma exec_size : forall todo es s, (forall t, Forall valid (todo t)) -> hexec keqb dk dv hash n0 todo es s ->
  zlen (c_index (h_list (hs_cache s))) <= cap.
Proof.
  intros todo es s Hv Hx. destruct (exec_inv _ _ _ Hv Hx) as (used & l & HR & _).
  pose proof (Permutation_length (hr_index _ _ _ HR)) as HP. pose proof (hr_next _ _ _ HR). pose proof (hr_max _ _ _ HR).
  rewrite combine_length in HP. unfold zlen in *. lia.
Qed.
(** the keys of the calls and returns *)
Definition phase_key (p : hphase K V) : list K :=
  match p with HIdle => [] | HEnter k | HFound k _ | HMiss k | HMade k _ | HDone k _ => [k] end.
Lemma exec_keys : forall todo es s, (forall t, Forall valid (todo t)) -> hexec keqb dk dv hash n0 todo es s ->
  forall t k v, In (HReturn t k v) es -> valid k.
Proof.
  intros todo es s Hv Hx.
  assert (X : (forall t, Forall valid (ht_todo (hs_threads s t)) /\ Forall valid (phase_key (ht_phase (hs_threads s t)))) /\ forall t k v, In (HReturn t k v) es -> valid k).
  { induction Hx as [c Hc | es x y Hx [IH1 IH2] Hs | es x e y Hx [IH1 IH2] Hs].
    - split; [intros t; cbn; split; [apply Hv | constructor] | intros t k v []].
    - split; [| exact IH2]. inversion Hs; subst; cbn [hs_threads] in *. intros u. destruct (Nat.eq_dec u t) as [-> | Hn]; [| rewrite hupd_other by exact Hn; apply IH1].
      rewrite hupd_same. specialize (IH1 t). match goal with h : _ = mkHT _ _ |- _ => rewrite h in IH1 end. cbn in *. exact IH1.
    - assert (Y : forall t, Forall valid (ht_todo (hs_threads y t)) /\ Forall valid (phase_key (ht_phase (hs_threads y t)))).
      { inversion Hs; subst; cbn [hs_threads] in *; intros u; (destruct (Nat.eq_dec u t) as [-> | Hn]; [| rewrite hupd_other by exact Hn; apply IH1]);
          rewrite hupd_same; specialize (IH1 t); match goal with h : _ = mkHT _ _ |- _ => rewrite h in IH1 end; cbn in *; destruct IH1 as [I1 I2]; try (split; [assumption | first [assumption | constructor]]).
        - inversion I1; subst. split; [assumption | constructor; [assumption | constructor]].
        - split; [assumption |]. destruct p; cbn; assumption. }
      split; [exact Y |]. intros t k v Hi. apply in_app_or in Hi. destruct Hi as [Hi | [Hi | []]]; [exact (IH2 _ _ _ Hi) |]. subst e.
      inversion Hs; subst; cbn [hs_threads] in *; specialize (IH1 t); match goal with h : _ = mkHT _ _ |- _ => rewrite h in IH1 end; cbn in IH1; destruct IH1 as [_ I2]; inversion I2; assumption. }
  exact (proj2 X).
Qed.
End Facts.
