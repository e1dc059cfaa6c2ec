From Verif Require Import Base MemFacts Lru LruFacts SpecCache.
From Coq Require Import Lia ZArith List Bool.
Import ListNotations.


Section CacheFacts.
Context {K V : Type}.
Variable keqb : K -> K -> bool.
Hypothesis keqb_eq : forall a b, keqb a b = true <-> a = b.
Variables (dk : K) (dv : V) (cap : Z).
Hypothesis cap2 : 2 <= cap.

(** what the representation says about the abstract list *)
Lemma rep_bounds c (l : list (K * V)) : rep cap c l -> NoDup (keys l) /\ zlen l <= cap.
Proof.
  intros [(used & free & nxt & _ & A & _ & _ & _ & _ & _ & B & C & _)]. split; [exact C|].
  apply Forall2_length in B. rewrite zlen_app in A. unfold zlen in *. lia.
Qed.
Lemma find_some k (l : list (K * V)) v : a_find keqb k l = Some v ->
  exists a b, l = a ++ (k, v) :: b /\ ~ In k (keys a).
Proof.
  induction l as [|[k' v'] l IH]; cbn [a_find]; [discriminate|]. destruct (keqb k k') eqn:E.
  - intro H. injection H as ->. apply keqb_eq in E as <-. exists [], l. split; [reflexivity | intros []].
  - intro H. destruct (IH H) as (a & b & -> & N). exists ((k', v') :: a), b. split; [reflexivity|].
    intros [e|i]; [|exact (N i)]. cbn in e. subst k'. rewrite (proj2 (keqb_eq k k) eq_refl) in E. discriminate.
Qed.
Lemma nodup_after (a b : list (K * V)) k v : NoDup (keys (a ++ (k, v) :: b)) -> ~ In k (keys a) /\ ~ In k (keys b).
Proof.
  unfold keys. rewrite map_app. cbn [map fst]. intro N. apply NoDup_remove_2 in N. rewrite in_app_iff in N. tauto.
Qed.
Lemma a_get_reads k (l : list (K * V)) : NoDup (keys l) -> reads l k (fst (a_get keqb k l)) (snd (a_get keqb k l)).
Proof.
  intro N. unfold a_get. destruct (a_find keqb k l) as [v|] eqn:E.
  - destruct (find_some _ _ _ E) as (a & b & -> & _). cbn [fst snd reads]. exists a, b. split; [reflexivity|].
    destruct (nodup_after _ _ _ _ N) as [A B]. unfold a_remove. rewrite (filter_split keqb keqb_eq) by assumption. reflexivity.
  - cbn [fst snd reads]. split; [|reflexivity]. apply (a_find_none keqb keqb_eq). exact E.
Qed.
Lemma a_put_writes k v (l : list (K * V)) : NoDup (keys l) -> zlen l <= cap -> writes cap l k v (a_put keqb cap k v l).
Proof.
  intros N L. unfold a_put. destruct (a_find keqb k l) as [u|] eqn:E.
  - left. destruct (find_some _ _ _ E) as (a & b & -> & _). exists a, u, b. split; [reflexivity|].
    destruct (nodup_after _ _ _ _ N) as [A B]. apply (map_replace_split keqb keqb_eq); assumption.
  - right. apply (a_find_none keqb keqb_eq) in E.
    destruct (Z.eq_dec (zlen l) cap) as [e|n]; [right | left]; (split; [exact E|]); (split; [lia|]).
    + destruct (snoc_cases l) as [-> | (a & x & ->)]; [cbn in e; lia|]. exists a, x. split; [reflexivity|].
      rewrite zlen_app in e. cbn in e. unfold zlen in *. cbn [length] in e.
      change ((k, v) :: a ++ [x]) with (((k, v) :: a) ++ [x]).
      rewrite firstn_app, firstn_all2 by (cbn [length]; lia).
      replace (Z.to_nat cap - length ((k, v) :: a))%nat with 0%nat by (cbn [length]; lia). cbn [firstn]. apply app_nil_r.
    + apply firstn_all2. unfold zlen in *. cbn [length]. lia.
Qed.
Lemma do_ok o c (l : list (K * V)) : rep cap c l ->
  exists r c' l', cache_do keqb dk dv cap o c = Ok (r, c') /\ rep cap c' l' /\ behaves cap o l r l'.
Proof.
  intro R. destruct (rep_bounds _ _ R) as [N L]. destruct o as [k|k v|k v|]; cbn [cache_do behaves].
  - destruct (get_rep keqb keqb_eq cap c l k R) as (c' & -> & R').
    do 3 eexists. split; [reflexivity|]. split; [exact R' | apply a_get_reads; exact N].
  - destruct (insert_rep keqb keqb_eq cap cap2 c l k v R) as (c' & -> & R').
    do 3 eexists. split; [reflexivity|]. split; [exact R'|]. split; [reflexivity | apply a_put_writes; assumption].
  - unfold get_or_insert. destruct (get_rep keqb keqb_eq cap c l k R) as (c1 & -> & R1).
    pose proof (a_get_reads k l N) as G. cbn [rbind]. destruct (a_get keqb k l) as [[u|] l1]; cbn [fst snd] in *.
    + do 3 eexists. split; [reflexivity|]. split; [exact R1|]. left. exists u. split; [reflexivity | exact G].
    + destruct G as [A ->]. destruct (insert_rep keqb keqb_eq cap cap2 c1 l k v R1) as (c' & -> & R').
      do 3 eexists. split; [reflexivity|]. split; [exact R'|]. right. split; [reflexivity|]. split; [exact A | apply a_put_writes; assumption].
  - do 3 eexists. split; [reflexivity|]. split; [apply (clear_rep dk dv cap cap2) | split; reflexivity].
Qed.
Lemma run_ok os : forall c (l : list (K * V)), rep cap c l ->
  exists rs c' l', cache_run keqb dk dv cap os c = Ok (rs, c') /\ rep cap c' l' /\ history cap l os rs l'.
Proof.
  induction os as [|o os IH]; intros c l R; cbn [cache_run].
  - do 3 eexists. split; [reflexivity|]. split; [exact R | constructor].
  - destruct (do_ok o c l R) as (r & c1 & l1 & -> & R1 & B). cbn [rbind].
    destruct (IH c1 l1 R1) as (rs & c2 & l2 & -> & R2 & Hh). do 3 eexists. split; [reflexivity|]. split; [exact R2 | econstructor; eassumption].
Qed.

(** C21 *)
Lemma cache_history os : exists rs c l, cache_run keqb dk dv cap os (clear dk dv cap) = Ok (rs, c) /\
  history cap [] os rs l /\ NoDup (keys l) /\ zlen l <= cap.
Proof.
  destruct (run_ok os _ _ (clear_rep dk dv cap cap2)) as (rs & c & l & A & B & C).
  exists rs, c, l. split; [exact A|]. split; [exact C | exact (rep_bounds _ _ B)].
Qed.
(** the specification determines the results *)
Lemma split_unique (k : K) (v v' : V) : forall a a' b b', NoDup (keys (a ++ (k, v) :: b)) -> a ++ (k, v) :: b = a' ++ (k, v') :: b' ->
  a = a' /\ v = v' /\ b = b'.
Proof.
  induction a as [|x a IH]; intros [|y a'] b b' N e.
  - injection e as -> ->. auto.
  - cbn in e. injection e as <- ->. destruct (nodup_after [] _ _ _ N) as [_ N2]. exfalso. apply N2.
    unfold keys. rewrite map_app, in_app_iff. right. left. reflexivity.
  - cbn in e. injection e as -> _. destruct (nodup_after _ _ _ _ N) as [N1 _]. exfalso. apply N1. left. reflexivity.
  - cbn in e. injection e as -> e. unfold keys in N. cbn in N. apply NoDup_cons_iff in N as [_ N].
    destruct (IH a' b b' N e) as (-> & -> & ->). auto.
Qed.
Lemma in_keys (k : K) (v : V) (a b : list (K * V)) : In k (keys (a ++ (k, v) :: b)).
Proof. unfold keys. rewrite map_app, in_app_iff. right. left. reflexivity. Qed.
Lemma reads_fun (l : list (K * V)) k r r' l1 l2 : NoDup (keys l) -> reads (V:=V) l k r l1 -> reads l k r' l2 -> r = r' /\ l1 = l2.
Proof.
  intros N A B. destruct r as [v|], r' as [v'|]; cbn [reads] in *.
  - destruct A as (a & b & -> & ->), B as (a' & b' & e & ->). destruct (split_unique _ _ _ _ _ _ _ N e) as (-> & -> & ->). auto.
  - destruct A as (a & b & -> & ->), B as [B _]. exfalso. apply B, in_keys.
  - destruct B as (a & b & -> & ->), A as [A _]. exfalso. apply A, in_keys.
  - destruct A as [_ ->], B as [_ ->]. auto.
Qed.
Lemma writes_fun (l : list (K * V)) k v l1 l2 : NoDup (keys l) -> writes cap l k v l1 -> writes cap l k v l2 -> l1 = l2.
Proof.
  intros N A B.
  destruct A as [(a & u & b & -> & ->) | [(A & A2 & ->) | (A & A2 & a & x & -> & ->)]],
    B as [(a' & u' & b' & e & ->) | [(B & B2 & ->) | (B & B2 & a' & x' & e & ->)]].
  - destruct (split_unique _ _ _ _ _ _ _ N e) as (-> & -> & ->). reflexivity.
  - exfalso. apply B, in_keys.
  - exfalso. apply B, in_keys.
  - exfalso. apply A. rewrite e. apply in_keys.
  - reflexivity.
  - exfalso. lia.
  - exfalso. apply A. rewrite e. apply in_keys.
  - exfalso. lia.
  - apply app_inj_tail in e as [-> ->]. reflexivity.
Qed.
Lemma behaves_fun o (l : list (K * V)) r r' l1 l2 : NoDup (keys l) -> behaves cap o l r l1 -> behaves cap o l r' l2 -> r = r' /\ l1 = l2.
Proof.
  intros N. destruct o as [k|k v|k v|]; cbn [behaves].
  - apply reads_fun. exact N.
  - intros [-> A] [-> B]. split; [reflexivity | exact (writes_fun _ _ _ _ _ N A B)].
  - intros [(u & -> & A) | (-> & A & A2)] [(u' & -> & B) | (-> & B & B2)].
    + destruct (reads_fun _ _ _ _ _ _ N A B) as [e ->]. auto.
    + destruct A as (a & b & -> & _). exfalso. apply B, in_keys.
    + destruct B as (a & b & -> & _). exfalso. apply A, in_keys.
    + split; [reflexivity | exact (writes_fun _ _ _ _ _ N A2 B2)].
  - intros [-> ->] [-> ->]. auto.
Qed.
(** what the specification preserves *)
Definition sane (l : list (K * V)) : Prop := NoDup (keys l) /\ zlen l <= cap.
Lemma reads_sane (l : list (K*V)) k r l' : reads l k r l' -> sane l -> sane l' /\ Permutation.Permutation l l'.
Proof.
  destruct r as [v|]; cbn [reads].
  - intros (a & b & -> & ->) [N L].
    assert (P : Permutation.Permutation (a ++ (k, v) :: b) ((k, v) :: a ++ b)) by (symmetry; apply Permutation.Permutation_middle).
    split; [|exact P]. split.
    + eapply Permutation.Permutation_NoDup; [|exact N]. unfold keys. apply Permutation.Permutation_map. exact P.
    + apply Permutation.Permutation_length in P. unfold zlen in *. lia.
  - intros [_ ->] S. split; [exact S | apply Permutation.Permutation_refl].
Qed.
Lemma writes_sane (l : list (K*V)) k v l' : writes cap l k v l' -> sane l -> sane l'.
Proof.
  intros [(a & u & b & -> & ->) | [(A & A2 & ->) | (A & A2 & a & x & -> & ->)]] [N L]; split.
  - unfold keys in *. rewrite map_app in *. exact N.
  - unfold zlen in *. rewrite app_length in *. cbn [length] in *. exact L.
  - unfold keys in *. cbn. constructor; assumption.
  - unfold zlen in *. cbn [length]. lia.
  - unfold keys in *. rewrite map_app in *. cbn [map fst]. constructor.
    + intro i. apply A. rewrite in_app_iff. left. exact i.
    + apply NoDup_remove_1 in N. rewrite app_nil_r in N. exact N.
  - unfold zlen in *. rewrite app_length in *. cbn [length] in *. lia.
Qed.
Lemma behaves_sane o (l : list (K*V)) r l' : behaves cap o l r l' -> sane l -> sane l'.
Proof.
  destruct o as [k|k v|k v|]; cbn [behaves].
  - intros A S. exact (proj1 (reads_sane _ _ _ _ A S)).
  - intros [_ A]. exact (writes_sane _ _ _ _ A).
  - intros [(u & _ & A) | (_ & _ & A)] S; [exact (proj1 (reads_sane _ _ _ _ A S)) | exact (writes_sane _ _ _ _ A S)].
  - intros [_ ->] _. split; [constructor | cbn; lia].
Qed.
Lemma history_fun os : forall (l : list (K*V)) rs rs' l1 l2, sane l -> history cap l os rs l1 -> history cap l os rs' l2 -> rs = rs' /\ l1 = l2.
Proof.
  induction os as [|o os IH]; intros l rs rs' l1 l2 S A B; inversion A; subst; inversion B; subst; [auto|].
  match goal with X : behaves _ _ _ _ _, Y : behaves _ _ _ _ _ |- _ => pose proof (behaves_fun _ _ _ _ _ _ (proj1 S) X Y) as [-> ->] end.
  match goal with X : behaves _ _ _ _ _ |- _ => pose proof (behaves_sane _ _ _ _ X S) as S' end.
  match goal with X : history _ _ os _ _, Y : history _ _ os _ _ |- _ => destruct (IH _ _ _ _ _ S' X Y) as [-> ->] end. auto.
Qed.
Lemma history_unique os rs rs' l l' : history (K:=K) (V:=V) cap [] os rs l -> history cap [] os rs' l' -> rs = rs' /\ l = l'.
Proof. apply history_fun. split; [constructor | cbn; lia]. Qed.

(** a value found is the value last written *)
Definition tracks (l : list (K * V)) (f : K -> option V) : Prop := forall k v, In (k, v) l -> f k = Some v.
Lemma write_tracks l k v l' f : writes cap l k v l' -> sane l -> tracks l f -> tracks l' (fun x => if keqb k x then Some v else f x).
Proof.
  intros Wr S T x u I.
  assert (C : (x = k /\ u = v) \/ (x <> k /\ In (x, u) l)).
  { destruct Wr as [(a & u0 & b & -> & ->) | [(A & A2 & ->) | (A & A2 & a & y & -> & ->)]].
    - destruct (nodup_after _ _ _ _ (proj1 S)) as [N1 N2]. rewrite in_app_iff in I. cbn in I. destruct I as [I | [I | I]].
      + right. split; [|apply in_app_iff; auto]. intros ->. apply N1. exact (in_map fst _ _ I).
      + left. injection I as -> ->. auto.
      + right. split; [|apply in_app_iff; cbn; auto]. intros ->. apply N2. exact (in_map fst _ _ I).
    - destruct I as [I|I]; [injection I as -> ->; auto|]. right. split; [|exact I]. intros ->. apply A. exact (in_map fst _ _ I).
    - destruct I as [I|I]; [injection I as -> ->; auto|]. right. split; [|apply in_app_iff; auto]. intros ->. apply A.
      unfold keys. rewrite map_app, in_app_iff. left. exact (in_map fst _ _ I). }
  destruct C as [[-> ->] | [n I']]; [rewrite (proj2 (keqb_eq k k) eq_refl); reflexivity|].
  rewrite (keqb_neq keqb keqb_eq) by (intro e; apply n; symmetry; exact e). exact (T _ _ I').
Qed.
Lemma read_tracks l k r l' f : reads l k r l' -> sane l -> tracks l f -> tracks l' f.
Proof.
  intros R S T x u I. apply T. destruct (reads_sane _ _ _ _ R S) as [_ P].
  eapply Permutation.Permutation_in; [apply Permutation.Permutation_sym; exact P | exact I].
Qed.
Lemma behaves_tracks o l r l' f : behaves cap o l r l' -> sane l -> tracks l f ->
  tracks l' (fun x => last_written keqb x [o] [r] (f x)).
Proof.
  intros B S T. destruct o as [k|k v|k v|]; cbn [behaves last_written] in *.
  - exact (read_tracks _ _ _ _ _ B S T).
  - destruct B as [_ B]. exact (write_tracks _ _ _ _ _ B S T).
  - destruct B as [(u & -> & B) | (-> & _ & B)].
    + pose proof (read_tracks _ _ _ _ _ B S T) as T'. intros x w I. destruct (keqb k x) eqn:e; [|exact (T' _ _ I)].
      apply keqb_eq in e as <-. cbn [reads] in B. destruct B as (a & b & -> & ->). rewrite <- (T' _ _ I). symmetry. apply T'. left. reflexivity.
    + exact (write_tracks _ _ _ _ _ B S T).
  - destruct B as [_ ->]. intros x w [].
Qed.
Lemma last_written_cons k o r os rs (acc : option V) :
  last_written keqb k (o :: os) (r :: rs) acc = last_written keqb k os rs (last_written keqb k [o] [r] acc).
Proof. destruct o; destruct os; reflexivity. Qed.
Lemma history_tracks os : forall l rs l' f, history cap l os rs l' -> sane l -> tracks l f ->
  sane l' /\ tracks l' (fun x => last_written keqb x os rs (f x)).
Proof.
  induction os as [|o os IH]; intros l rs l' f Hh S T; inversion Hh; subst; [split; assumption|].
  match goal with X : behaves _ _ _ _ _ |- _ => pose proof (behaves_sane _ _ _ _ X S) as S'; pose proof (behaves_tracks _ _ _ _ _ X S T) as T' end.
  match goal with X : history _ _ os _ _ |- _ => destruct (IH _ _ _ _ X S' T') as [A B] end.
  split; [exact A|]. intros x u I. rewrite last_written_cons. exact (B x u I).
Qed.
(** C21: what a Get after any history returns *)
Lemma get_value os k : exists rs r c, cache_run keqb dk dv cap (os ++ [CGet k]) (clear dk dv cap) = Ok (rs ++ [r], c) /\ length rs = length os /\ (r = None \/ r = last_written keqb k os rs None).
Proof.
  destruct (run_ok os _ _ (clear_rep dk dv cap cap2)) as (rs & c & l & A & B & C).
  destruct (do_ok (CGet k) c l B) as (r & c' & l' & D & E & F).
  exists rs, r, c'. split; [|split].
  - clear B C E F. revert rs c A D. generalize (clear dk dv cap). induction os as [|o os IH]; intros c0 rs c A D; cbn [cache_run app] in *.
    + injection A as <- <-. rewrite D. reflexivity.
    + destruct (cache_do keqb dk dv cap o c0) as [[r0 c1]| |]; cbn [rbind] in *; try discriminate.
      destruct (cache_run keqb dk dv cap os c1) as [[rs1 c2]| |] eqn:G; cbn [rbind] in *; try discriminate.
      injection A as <- <-. rewrite (IH _ _ _ G D). reflexivity.
  - clear - C. induction C; cbn; congruence.
  - assert (S : sane []) by (split; [constructor | cbn; lia]).
    destruct (history_tracks os [] rs l (fun _ => None) C S) as [_ T]; [intros x u []|].
    cbn [behaves] in F. destruct r as [u|]; [right|left; reflexivity]. destruct F as (a & b & -> & _).
    symmetry. apply T. apply in_elt.
Qed.
End CacheFacts.

(** C22: with one entry the first insertion follows the null predecessor of the tail, for every key type *)
Lemma capacity_one {K V} keqb (dk : K) (dv : V) k v : insert_or_assign keqb k v (clear dk dv 1) = Undef UB_lru_null.
Proof. reflexivity. Qed.
(** with no entry there is nothing to point to *)
Lemma capacity_zero {K V} keqb (dk : K) (dv : V) k v : insert_or_assign keqb k v (clear dk dv 0) = Undef UB_lru_oob.
Proof. reflexivity. Qed.
(** C22 *)
Lemma never_undefined {K V} (keqb : K -> K -> bool) : (forall a b, keqb a b = true <-> a = b) ->
  forall (dk : K) (dv : V) cap, 2 <= cap -> forall os u, cache_run keqb dk dv cap os (clear dk dv cap) <> Undef u.
Proof.
  intros e dk dv cap c2 os u. destruct (cache_history keqb e dk dv cap c2 os) as (rs & c & l & -> & _). discriminate.
Qed.
