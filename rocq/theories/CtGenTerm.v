(** Termination of the storage generators for fair random numbers. *)
From Verif Require Import Base Host GoStorage CtSolve CtGen SpecGen CtStorageFacts.
From Coq Require Import Permutation.

(** With enough fuel the outcome no longer depends on the fuel and is not [Running]. *)
Definition settles {A} (P : A -> Prop) (m : nat -> outcome A) : Prop :=
  exists F r, (forall f, (F <= f)%nat -> m f = r) /\ match r with Running => False | Generated x => P x | _ => True end.

Lemma settles_ret {A} (P : A -> Prop) x : P x -> settles P (fun _ => Generated x).
Proof. intros h. exists 0%nat, (Generated x). auto. Qed.
Lemma settles_err {A} (P : A -> Prop) : settles P (fun _ => ErrUnsatisfiable).
Proof. exists 0%nat, ErrUnsatisfiable. auto. Qed.
Lemma settles_bind {A B} (P : A -> Prop) (Q : B -> Prop) m k : settles P m -> (forall x, P x -> settles Q (k x)) -> settles Q (fun f => gbind (m f) (fun x => k x f)).
Proof.
  intros (F & r & h1 & h2) hk. destruct r as [x| | | |]; [|exists F, ErrUnsatisfiable|exists F, ErrUnboundVariable|exists F, Panics|contradiction].
  - destruct (hk x h2) as (F2 & r2 & h3 & h4). exists (Nat.max F F2), r2. split; [|exact h4]. intros f hf. rewrite h1 by lia. cbn. apply h3. lia.
  - split; [intros f hf; rewrite h1 by lia; reflexivity|exact Logic.I].
  - split; [intros f hf; rewrite h1 by lia; reflexivity|exact Logic.I].
  - split; [intros f hf; rewrite h1 by lia; reflexivity|exact Logic.I].
Qed.
Lemma settles_ext {A} (P : A -> Prop) m m' : (forall f, m f = m' f) -> settles P m -> settles P m'.
Proof. intros he (F & r & h1 & h2). exists F, r. split; [intros f hf; rewrite <- he; auto|exact h2]. Qed.
Lemma settles_weaken {A} (P Q : A -> Prop) m : (forall x, P x -> Q x) -> settles P m -> settles Q m.
Proof. intros he (F & r & h1 & h2). exists F, r. split; [exact h1|]. destruct r; auto. Qed.

Section Fair.
Variable rnd : nat -> Z.
Hypothesis hf : fair rnd.

Lemma retry_mono : forall n ex g r n', retry rnd n ex g = Generated r -> (n <= n')%nat -> retry rnd n' ex g = Generated r.
Proof.
  induction n as [|n IH]; intros ex g r n' h hn; [discriminate|]. destruct n' as [|n']; [lia|]. cbn [retry draw] in *.
  destruct (existsb _ ex); [apply IH; [exact h|lia]|exact h].
Qed.
Lemma retry_done : forall k ex g m, (m = drawn g + k)%nat -> ~ In (rnd m) ex -> exists r, retry rnd (S k) ex g = Generated r.
Proof.
  induction k as [|k IH]; intros ex g m hm hn.
  - cbn [retry draw]. replace (drawn g) with m by lia. destruct (existsb (Z.eqb (rnd m)) ex) eqn:e; [apply existsb_in in e; contradiction|eexists; reflexivity].
  - cbn [retry draw]. destruct (existsb (Z.eqb (rnd (drawn g))) ex); [|eexists; reflexivity]. apply (IH ex (mkG (S (drawn g)) (used g) (asg g)) m); [cbn; lia|exact hn].
Qed.

Definition len (g : gstate) : Z := zlen (used g).

Lemma retry_settles ex g : zlen ex < 2 ^ 64 -> settles (fun vg => used (snd vg) = used g) (fun f => retry rnd f ex g).
Proof.
  intros hl. destruct (hf (drawn g) ex hl) as (m & h1 & h2). destruct (retry_done (m - drawn g) ex g m ltac:(lia) h2) as ([v g'] & h).
  exists (S (m - drawn g)), (Generated (v, g')). split; [intros f hff; apply (retry_mono _ _ _ _ _ h hff)|]. apply retry_ok in h. apply h.
Qed.
Lemma unused_settles g : len g < 2 ^ 64 -> settles (fun vg => len (snd vg) = len g + 1) (fun f => getUnusedKey rnd f g).
Proof.
  intros hl. unfold getUnusedKey. eapply settles_bind; [apply retry_settles; exact hl|]. intros [k g1] h. cbn [snd] in *. apply settles_ret. unfold len, zlen. cbn. rewrite h. lia.
Qed.
Lemma getKey_settles v g : len g < 2 ^ 64 -> settles (fun vg => len (snd vg) <= len g + 1) (fun f => getKey rnd f v g).
Proof.
  intros hl. unfold getKey. destruct (asg g v); [apply settles_ret; cbn; lia|]. eapply settles_bind; [apply unused_settles; exact hl|]. intros [k g1] h. cbn [snd] in *. apply settles_ret. unfold len in *. cbn. lia.
Qed.
Lemma short (l : list Z) n : (length l <= n)%nat -> (n <= 10)%nat -> zlen l < 2 ^ 64.
Proof. unfold zlen. lia. Qed.

Lemma pick_new_settles con g : settles (fun vg => len (snd vg) = len g) (fun f => pick_new rnd f con g).
Proof.
  unfold pick_new. destruct (asg g (c_new con)).
  - destruct (_ || _); [apply settles_err|apply settles_ret; reflexivity].
  - apply (settles_bind (fun vg => used (snd vg) = used g)).
    + destruct (NewValueMustBeZero _); [apply settles_ret; reflexivity|]. destruct (NewValueMustNotBeZero _).
      * apply retry_settles. cbn. lia.
      * cbn [draw]. destruct (_ =? 0); apply settles_ret; reflexivity.
    + intros [v g1] h. apply settles_ret. unfold len. cbn in *. rewrite h. reflexivity.
Qed.
Lemma pick_values_settles s new g : settles (fun vg => len (snd vg) = len g) (fun f => pick_values rnd f s new g).
Proof.
  unfold pick_values, randValueButNot. destruct s; try (apply settles_ret; reflexivity);
    (eapply settles_bind; [apply retry_settles; cbn; lia|intros [v g1] h; cbn [snd] in h]);
    first [apply settles_ret; unfold len; cbn; rewrite h; reflexivity
          |eapply settles_bind; [apply retry_settles; cbn; lia|intros [w g2] h2; cbn [snd] in h2; apply settles_ret; unfold len; cbn; rewrite h2, h; reflexivity]].
Qed.
Lemma configs_settle : forall l s g, len g + zlen l < 2 ^ 64 -> settles (fun sg => len (snd sg) <= len g + zlen l) (fun f => configs rnd f l s g).
Proof.
  induction l as [|con l IH]; intros s g hl; cbn [configs]; [apply settles_ret; cbn; lia|].
  assert (hz : zlen (con :: l) = zlen l + 1) by (unfold zlen; cbn; lia). rewrite hz in *. assert (0 <= zlen l) by (unfold zlen; lia).
  eapply settles_bind; [apply getKey_settles; lia|]. intros [key g1] h1. cbn [snd] in h1.
  eapply settles_bind; [apply pick_new_settles|]. intros [new g2] h2. cbn [snd] in h2.
  eapply settles_bind; [apply pick_values_settles|]. intros [[o c] g3] h3. cbn [snd] in h3.
  eapply settles_weaken; [|apply IH; lia]. intros x hx. cbn beta in *. lia.
Qed.
Lemma warms_settle : forall l s g, len g + zlen l < 2 ^ 64 -> settles (fun sg => len (snd sg) <= len g + zlen l) (fun f => warms rnd f l s g).
Proof.
  induction l as [|con l IH]; intros s g hl; cbn [warms]; [apply settles_ret; cbn; lia|].
  assert (hz : zlen (con :: l) = zlen l + 1) by (unfold zlen; cbn; lia). rewrite hz in *. assert (0 <= zlen l) by (unfold zlen; lia).
  eapply settles_bind; [apply getKey_settles; lia|]. intros [key g1] h1. cbn [snd] in h1. cbv beta.
  destruct (IsInOriginal key s); cbn [draw]; (eapply settles_weaken; [|apply IH; unfold len in *; cbn; lia]); intros x hx; unfold len in *; cbn in *; lia.
Qed.
Lemma extras_settle : forall n s g, len g + Z.of_nat n < 2 ^ 64 -> settles (fun _ => True) (fun f => extras rnd f n s g).
Proof.
  induction n as [|n IH]; intros s g hl; cbn [extras]; [apply settles_ret; exact Logic.I|].
  eapply settles_bind; [apply unused_settles; lia|]. intros [key g1] h1. cbn [snd] in h1. cbn [draw]. apply IH. unfold len in *. cbn. lia.
Qed.

Lemma bound_keys_len a l : zlen (bound_keys a l) <= zlen l.
Proof. induction l as [|x l IH]; [cbn; lia|]. unfold zlen in *. cbn [bound_keys flat_map]. rewrite app_length. fold (bound_keys a l). destruct (a x); cbn; lia. Qed.
Lemma sort_len {A} (less : A -> A -> bool) l : zlen (sort less l) = zlen l.
Proof. unfold zlen. f_equal. apply Permutation_length, sort_perm. Qed.
Lemma map_len {A B} (f : A -> B) l : zlen (map f l) = zlen l. Proof. unfold zlen. rewrite map_length. reflexivity. Qed.

Lemma generator_len qs : zlen (g_cfg (storage_generator qs)) + zlen (g_warm (storage_generator qs)) <= zlen qs.
Proof.
  induction qs as [|q qs IH] using rev_ind; [cbn; lia|]. unfold storage_generator. rewrite fold_left_app. cbn [fold_left]. fold (storage_generator qs). set (g := storage_generator qs) in *.
  assert (zlen (qs ++ [q]) = zlen qs + 1) by (unfold zlen; rewrite app_length; cbn; lia).
  destruct q as [s k v|k|k]; cbn [storage_request_call]; unfold BindConfiguration, BindWarm, BindCold, bind_warmcold;
    match goal with |- context [if ?c then _ else _] => destruct c end; cbn [g_cfg g_warm]; unfold zlen in *; rewrite ?app_length; cbn; lia.
Qed.

Theorem storage_generate_terminates a qs : 2 * zlen qs < 2 ^ 63 ->
  exists F, forall f, (F <= f)%nat -> StorageGenerate rnd f a (storage_generator qs) <> Running.
Proof.
  intros hq. pose proof (generator_len qs) as hg. set (g := storage_generator qs) in *.
  cut (settles (fun _ => True) (fun f => StorageGenerate rnd f a g)).
  { intros (F & r & h1 & h2). exists F. intros f hff. rewrite h1 by exact hff. destruct r; [discriminate|discriminate|discriminate|discriminate|contradiction]. }
  unfold StorageGenerate. set (cfg := sort config_Less (g_cfg g)). set (wcs := sort warm_Less (g_warm g)).
  destruct (neighbours config_conflict cfg); [apply settles_err|]. destruct (neighbours warm_conflict wcs); [apply settles_err|].
  set (g0 := mkG 0 (bound_keys a (map c_key cfg) ++ bound_keys a (map wc_key wcs)) a).
  assert (hc : zlen cfg = zlen (g_cfg g)) by apply sort_len. assert (hw : zlen wcs = zlen (g_warm g)) by apply sort_len.
  assert (h0 : len g0 <= zlen cfg + zlen wcs).
  { unfold len, g0. cbn [used]. pose proof (bound_keys_len a (map c_key cfg)) as b1. pose proof (bound_keys_len a (map wc_key wcs)) as b2. rewrite (map_len c_key cfg) in b1. rewrite (map_len wc_key wcs) in b2. clear -b1 b2. unfold zlen in *. rewrite app_length. lia. }
  assert (0 <= zlen cfg) by (unfold zlen; lia). assert (0 <= zlen wcs) by (unfold zlen; lia).
  eapply settles_bind; [apply configs_settle; lia|]. intros [s1 g1] h1. cbn [snd] in h1.
  eapply settles_bind; [apply warms_settle; lia|]. intros [s2 g2] h2. cbn [snd] in h2. cbn [draw].
  eapply settles_bind.
  - apply extras_settle. unfold len in *. cbn [used]. pose proof (Z.mod_pos_bound (rnd (drawn g2)) 5 ltac:(lia)). lia.
  - intros [s3 g3] _. apply settles_ret. exact Logic.I.
Qed.

End Fair.

Lemma map_nodup {A B} (f : A -> B) l : (forall x y, In x l -> In y l -> f x = f y -> x = y) -> NoDup l -> NoDup (map f l).
Proof.
  induction l as [|x l IH]; intros hi hn; cbn; [constructor|]. inversion hn as [|? ? h1 h2]; subst. constructor.
  - intros h. apply in_map_iff in h. destruct h as (y & e & h). apply h1. rewrite (hi x y (or_introl eq_refl) (or_intror h) (eq_sym e)). exact h.
  - apply IH; [|exact h2]. intros a b ha hb. apply hi; right; assumption.
Qed.

(** Counting up is fair. *)
Lemma counting_fair : fair (fun n => Z.of_nat n mod 2 ^ 256).
Proof.
  intros n l hl.
  set (vals := map (fun i => Z.of_nat (n + i) mod 2 ^ 256) (seq 0 (S (length l)))).
  assert (hnd : NoDup vals).
  { unfold vals. apply map_nodup; [|apply seq_NoDup]. intros i j hi hj e. apply in_seq in hi, hj. unfold zlen in hl.
    assert (e2 : (Z.of_nat i - Z.of_nat j) mod 2 ^ 256 = 0).
    { replace (Z.of_nat i - Z.of_nat j) with (Z.of_nat (n + i) - Z.of_nat (n + j)) by lia. rewrite Zminus_mod, e, Z.sub_diag. reflexivity. }
    assert (hb : 2 ^ 64 < 2 ^ 256) by (apply Z.pow_lt_mono_r; lia).
    apply Z.mod_divide in e2; [|lia]. destruct e2 as [q e2]. assert (q = 0) by nia. subst. lia. }
  destruct (Forall_Exists_dec (fun v => In v l) (fun v => in_dec Z.eq_dec v l) vals) as [hall|hex].
  - exfalso. assert (hinc : incl vals l) by (intros v hv; rewrite Forall_forall in hall; apply hall; exact hv).
    pose proof (NoDup_incl_length hnd hinc) as hlen. unfold vals in hlen. rewrite map_length, seq_length in hlen. lia.
  - apply Exists_exists in hex. destruct hex as (v & hv & hn). unfold vals in hv. apply in_map_iff in hv. destruct hv as (i & e & _). exists (n + i)%nat. split; [lia|]. cbv beta. rewrite e. exact hn.
Qed.
