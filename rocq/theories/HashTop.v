(** LFVM's two hash caches: what they return, for one thread and for many. *)
From Verif Require Import Base Lru LruFacts Keccak SpecKeccak KeccakFacts HashCache HashCacheFacts.
From Coq Require Import Lia ZArith List Bool.
Import ListNotations.
Open Scope Z_scope.

(** the caches of newSha3HashCache: the length of the keys and the hash function *)
Inductive hash_cache (empty : list Z) : nat -> (list Z -> res (list Z)) -> Prop :=
| hc32 : hash_cache empty 32 Keccak256For32byte
| hc64 : hash_cache empty 64 (Keccak256 empty).
Definition key_ok (n : nat) (k : list Z) : Prop := length k = n /\ Forall (fun b => 0 <= b < 256) k.
(** executions of threads sharing one of the caches *)
Definition cache_exec (n : nat) (hash : list Z -> res (list Z)) (capacity : Z) (todo : nat -> list (list Z)) (es : list (hevent (list Z) (list Z))) (s : hstate (list Z) (list Z)) : Prop :=
  hexec list_eqb (zeros (Z.of_nat n)) (zeros 32) hash capacity todo es s.
(** how often some thread entered a critical section *)
Fixpoint sections_in (es : list (hevent (list Z) (list Z))) : Z :=
  match es with [] => 0 | HSection _ :: es => 1 + sections_in es | _ :: es => sections_in es end.

Lemma sections_in_eq es : sections_in es = Z.of_nat (sections es).
Proof. induction es as [|[] es ih]; cbn [sections_in sections]; lia. Qed.
Lemma list_eqb_eq : forall a b, list_eqb a b = true <-> a = b.
Proof.
  induction a as [|x a ih]; intros [|y b]; cbn; split; try discriminate; try reflexivity.
  - intros e. apply andb_prop in e. destruct e as [e1 e2]. apply Z.eqb_eq in e1. apply ih in e2. congruence.
  - intros [= -> ->]. rewrite Z.eqb_refl. apply ih. reflexivity.
Qed.

Section Top.
Variable empty : list Z.
Hypothesis Hempty : digest [] empty.
Definition value (hash : list Z -> res (list Z)) (k : list Z) : list Z := match hash k with Ok h => h | _ => [] end.

Lemma hash_digest n hash k : hash_cache empty n hash -> key_ok n k -> hash k = Ok (value hash k) /\ digest k (value hash k).
Proof.
  intros hc [hl hb]. unfold value. destruct hc.
  - destruct (keccak32_ok k hl hb) as (h & -> & hd). split; [reflexivity|exact hd].
  - destruct (Keccak256_ok empty k hb Hempty) as (h & -> & hd). split; [reflexivity|exact hd].
Qed.
Lemma hash_value n hash : hash_cache empty n hash -> forall k, key_ok n k -> hash k = Ok (value hash k).
Proof. intros hc k hk. apply (hash_digest n hash k hc hk). Qed.
Lemma zero_key n : key_ok n (zeros (Z.of_nat n)).
Proof.
  unfold key_ok, zeros. rewrite Nat2Z.id, repeat_length. split; [reflexivity|]. apply Forall_forall. intros x hx. apply repeat_spec in hx. subst. lia.
Qed.

Definition cap_of (n : Z) : Z := Z.max 2 n.
Lemma cap_of_eq n : capacity_of n = cap_of n.
Proof. unfold capacity_of, cap_of. destruct (Z.ltb_spec n 2); lia. Qed.
Lemma cap_of_2 n : 2 <= cap_of n.
Proof. unfold cap_of. lia. Qed.

(** ** One thread *)
Definition crep (cap1 cap2 : Z) (c : sha3HashCache) : Prop :=
  (exists used l, hrep (value Keccak256For32byte) (cap_of cap1) (cache32 c) used l) /\
  (exists used l, hrep (value (Keccak256 empty)) (cap_of cap2) (cache64 c) used l).
Lemma new_crep cap1 cap2 : exists c, newSha3HashCache empty cap1 cap2 = Ok c /\ crep cap1 cap2 c.
Proof.
  unfold newSha3HashCache.
  destruct (new_rep list_eqb (zeros 32) (zeros 32) Keccak256For32byte (value Keccak256For32byte) (key_ok 32) (hash_value 32 _ (hc32 empty)) (zero_key 32)
    (cap_of cap1) (cap_of_2 _) cap1 (cap_of_eq _)) as (c1 & e1 & r1).
  destruct (new_rep list_eqb (zeros 64) (zeros 32) (Keccak256 empty) (value (Keccak256 empty)) (key_ok 64) (hash_value 64 _ (hc64 empty)) (zero_key 64)
    (cap_of cap2) (cap_of_2 _) cap2 (cap_of_eq _)) as (c2 & e2 & r2).
  rewrite e1. cbn [rbind]. rewrite e2. cbn [rbind]. eexists. split; [reflexivity|]. split; cbn [cache32 cache64]; eauto.
Qed.
Lemma cached_ok cap1 cap2 c data : crep cap1 cap2 c -> Forall (fun b => 0 <= b < 256) data ->
  exists h c', sha3_cached empty data c = Ok (h, c') /\ digest data h /\ crep cap1 cap2 c'.
Proof.
  intros [(u1 & l1 & r1) (u2 & l2 & r2)] hb. unfold sha3_cached. destruct (Z.eqb_spec (zlen data) 32) as [e|e32].
  - assert (hk : key_ok 32 data) by (split; [unfold zlen in e; lia|exact hb]).
    destruct (getHash_rep list_eqb list_eqb_eq Keccak256For32byte _ (key_ok 32) (hash_value 32 _ (hc32 empty)) (cap_of cap1) (cap_of_2 _) _ _ _ data hk r1) as (c' & u' & l' & eg & r').
    rewrite eg. cbn [rbind]. eexists _, _. split; [reflexivity|]. split; [apply (hash_digest 32 _ data (hc32 empty) hk)|]. split; cbn [cache32 cache64]; eauto.
  - destruct (Z.eqb_spec (zlen data) 64) as [e|e64].
    + assert (hk : key_ok 64 data) by (split; [unfold zlen in e; lia|exact hb]).
      destruct (getHash_rep list_eqb list_eqb_eq (Keccak256 empty) _ (key_ok 64) (hash_value 64 _ (hc64 empty)) (cap_of cap2) (cap_of_2 _) _ _ _ data hk r2) as (c' & u' & l' & eg & r').
      rewrite eg. cbn [rbind]. eexists _, _. split; [reflexivity|]. split; [apply (hash_digest 64 _ data (hc64 empty) hk)|]. split; cbn [cache32 cache64]; eauto.
    + destruct (Keccak256_ok empty data hb Hempty) as (h & eh & hd). rewrite eh. cbn [rbind]. eexists _, _. split; [reflexivity|]. split; [exact hd|]. split; eauto.
Qed.
Lemma history_ok cap1 cap2 datas : forall c, crep cap1 cap2 c -> Forall (Forall (fun b => 0 <= b < 256)) datas ->
  exists hs c', sha3_history empty datas c = Ok (hs, c') /\ Forall2 digest datas hs.
Proof.
  induction datas as [|d ds ih]; intros c hc hb; cbn [sha3_history].
  - eexists _, _. split; [reflexivity|constructor].
  - inversion hb as [|? ? hb1 hb2]; subst. destruct (cached_ok cap1 cap2 c d hc hb1) as (h & c1 & e1 & hd & hc1). rewrite e1. cbn [rbind].
    destruct (ih c1 hc1 hb2) as (hs & c2 & e2 & hds). rewrite e2. cbn [rbind]. eexists _, _. split; [reflexivity|constructor; assumption].
Qed.
Theorem sha3_cache_ok : forall cap1 cap2 datas, Forall (Forall (fun b => 0 <= b < 256)) datas ->
  exists c, newSha3HashCache empty cap1 cap2 = Ok c /\ exists hs c', sha3_history empty datas c = Ok (hs, c') /\ Forall2 digest datas hs.
Proof.
  intros cap1 cap2 datas hb. destruct (new_crep cap1 cap2) as (c & e & hc). exists c. split; [exact e|]. exact (history_ok cap1 cap2 datas c hc hb).
Qed.

(** ** Many threads *)
Theorem cache_returns : forall n hash capacity todo es s, hash_cache empty n hash -> (forall t, Forall (key_ok n) (todo t)) ->
  cache_exec n hash capacity todo es s ->
  forall es1 t es2 k v es3, es = es1 ++ HSection t :: es2 ++ HReturn t k v :: es3 -> sections_in es2 < Z.max 2 capacity -> digest k v.
Proof.
  intros n hash capacity todo es s hc hv hx es1 t es2 k v es3 he hn.
  pose proof (returns_ok list_eqb list_eqb_eq (zeros (Z.of_nat n)) (zeros 32) hash (value hash) (key_ok n) (hash_value n hash hc) (zero_key n) (cap_of capacity) (cap_of_2 _) capacity (cap_of_eq _)
    todo es s hv hx (es1 ++ HSection t :: es2) t k v es3) as X.
  rewrite he, <- app_assoc in X. cbn [app] in X. specialize (X eq_refl).
  assert (hk : key_ok n k).
  { pose proof (exec_keys list_eqb (zeros (Z.of_nat n)) (zeros 32) hash (key_ok n) (cap_of capacity) (cap_of_2 _) capacity (cap_of_eq _) todo es s hv hx) as Y. rewrite he in Y.
    apply (Y t k v). apply in_or_app. right. right. apply in_or_app. right. left. reflexivity. }
  rewrite X; [apply (hash_digest n hash k hc hk)|].
  rewrite rev_app_distr. cbn [rev]. rewrite <- app_assoc. cbn [app].
  pose proof (since_bound t (rev es2) (rev es1)) as B. rewrite sections_rev in B. rewrite sections_in_eq in hn. unfold cap_of. lia.
Qed.
Theorem cache_moves : forall n hash capacity todo es s, hash_cache empty n hash -> (forall t, Forall (key_ok n) (todo t)) ->
  cache_exec n hash capacity todo es s ->
  zlen (c_index (h_list (hs_cache s))) <= Z.max 2 capacity /\
  forall t, hs_threads s t <> mkHT HIdle [] -> exists e s', hstep list_eqb hash s e s' /\ hs_threads s' t <> hs_threads s t.
Proof.
  intros n hash capacity todo es s hc hv hx. split.
  - exact (exec_size list_eqb list_eqb_eq _ _ hash (value hash) (key_ok n) (hash_value n hash hc) (zero_key n) (cap_of capacity) (cap_of_2 _) capacity (cap_of_eq _) todo es s hv hx).
  - intros t ht. exact (exec_moves list_eqb list_eqb_eq _ _ hash (value hash) (key_ok n) (hash_value n hash hc) (zero_key n) (cap_of capacity) (cap_of_2 _) capacity (cap_of_eq _) todo es s t hv hx ht).
Qed.
End Top.

(** ** Running a schedule: each number is the thread that makes the next step *)
Section Schedule.
Variable hash : list Z -> res (list Z).
Definition hnext (t : nat) (s : hstate (list Z) (list Z)) : option (option (hevent (list Z) (list Z)) * hstate (list Z) (list Z)) :=
  let '(mkHS c ts) := s in
  match ts t with
  | mkHT HIdle [] => None
  | mkHT HIdle (k :: rest) => Some (Some (HCall t k), mkHS c (hupd ts t (mkHT (HEnter k) rest)))
  | mkHT (HEnter k) rest =>
      match section_look list_eqb k c with
      | Ok (p, c') => Some (Some (HSection t), mkHS c' (hupd ts t (mkHT (match p with Some _ => HFound k p | None => HMiss k end) rest)))
      | _ => None
      end
  | mkHT (HFound k p) rest => match read_entry p c with Ok v => Some (Some (HReturn t k v), mkHS c (hupd ts t (mkHT HIdle rest))) | _ => None end
  | mkHT (HMiss k) rest => match hash k with Ok v => Some (None, mkHS c (hupd ts t (mkHT (HMade k v) rest))) | _ => None end
  | mkHT (HMade k v) rest =>
      match section_insert list_eqb k v c with Ok c' => Some (Some (HSection t), mkHS c' (hupd ts t (mkHT (HDone k v) rest))) | _ => None end
  | mkHT (HDone k v) rest => Some (Some (HReturn t k v), mkHS c (hupd ts t (mkHT HIdle rest)))
  end.
Lemma hnext_ok t s e s' : hnext t s = Some (e, s') -> hstep list_eqb hash s e s'.
Proof.
  destruct s as [c ts]. unfold hnext. destruct (ts t) as [[|k|k p|k|k v|k v] rest] eqn:et.
  - destruct rest as [|k rest]; [discriminate|]. intros [= <- <-]. apply hs_call. exact et.
  - destruct (section_look list_eqb k c) as [[p c']| |] eqn:el; [|discriminate..]. intros [= <- <-]. eapply hs_look; eassumption.
  - destruct (read_entry p c) as [v| |] eqn:el; [|discriminate..]. intros [= <- <-]. eapply hs_read; eassumption.
  - destruct (hash k) as [v| |] eqn:el; [|discriminate..]. intros [= <- <-]. eapply hs_make; eassumption.
  - destruct (section_insert list_eqb k v c) as [c'| |] eqn:el; [|discriminate..]. intros [= <- <-]. eapply hs_insert; eassumption.
  - intros [= <- <-]. apply hs_return. exact et.
Qed.
Fixpoint play (sched : list nat) (s : hstate (list Z) (list Z)) : list (hevent (list Z) (list Z)) * hstate (list Z) (list Z) :=
  match sched with
  | [] => ([], s)
  | t :: sched =>
      match hnext t s with
      | None => ([], s)
      | Some (e, s) => let '(es, s) := play sched s in (match e with Some e => e :: es | None => es end, s)
      end
  end.
Lemma play_ok n capacity todo sched : forall es0 s, cache_exec n hash capacity todo es0 s -> forall es s', play sched s = (es, s') -> cache_exec n hash capacity todo (es0 ++ es) s'.
Proof.
  induction sched as [|t sched ih]; intros es0 s hx es s'; cbn [play].
  - intros [= <- <-]. rewrite app_nil_r. exact hx.
  - destruct (hnext t s) as [[e s1]|] eqn:en; [|intros [= <- <-]; rewrite app_nil_r; exact hx].
    apply hnext_ok in en. destruct (play sched s1) as [es1 s2] eqn:ep. intros [= <- <-]. destruct e as [e|].
    + change (e :: es1) with ([e] ++ es1). rewrite app_assoc. eapply ih; [|exact ep]. eapply hx_event; eassumption.
    + eapply ih; [|exact ep]. eapply hx_tau; eassumption.
Qed.
Definition start (n : nat) (capacity : Z) (todo : nat -> list (list Z)) : option (hstate (list Z) (list Z)) :=
  match newHashCache list_eqb (zeros (Z.of_nat n)) (zeros 32) hash capacity with Ok c => Some (mkHS c (fun t => mkHT HIdle (todo t))) | _ => None end.
Lemma scheduled n capacity todo sched es : match start n capacity todo with Some s => fst (play sched s) | None => [] end = es -> start n capacity todo <> None ->
  exists s, cache_exec n hash capacity todo es s.
Proof.
  unfold start. destruct (newHashCache _ _ _ _ _) as [c| |] eqn:ec; [|intros _ X; exfalso; apply X; reflexivity..]. intros <- _.
  destruct (play sched _) as [es s'] eqn:ep. cbn [fst]. exists s'. apply (play_ok n capacity todo sched [] _ (hx_new _ _ _ _ _ _ c ec) es s' ep).
Qed.
End Schedule.

Theorem keccak_total : forall data, Forall (fun b => 0 <= b < 256) data ->
  exists h, tosca_lfvm_keccak256 data = Ok h /\ forall h', digest data h' <-> h' = h.
Proof.
  intros data hb. destruct (keccak256_ok data hb) as (h & e & hd). exists h. split; [exact e|]. intros h'. split; [intros hd'; exact (digest_unique _ _ _ hd' hd)|intros ->; exact hd].
Qed.
Lemma digest_of data h : Forall (fun b => 0 <= b < 256) data -> tosca_lfvm_keccak256 data = Ok h -> digest data h.
Proof. intros hb e. destruct (keccak256_ok data hb) as (h' & e' & hd). rewrite e in e'. injection e' as <-. exact hd. Qed.
