From Verif Require Import Base CtEnum SpecEnum.
From Coq Require Import Lia ZArith List Bool.
Import ListNotations.
Open Scope Z_scope.

Section Remove.
Context {T : Type} (property : T -> Z) (compare : T -> T -> Z) (rank : T -> Z) (sort : list T -> list T).
Hypothesis hord : ordered property compare rank.
Hypothesis hsort : sorts property rank sort.

Fixpoint dedup (prev : T) (l : list T) : list T :=
  match l with [] => [] | a :: l => if negb (compare a prev =? 0) then a :: dedup a l else dedup a l end.
Lemma upd_length {A} (l : list A) i x : length (list_upd l i x) = length l.
Proof. revert i. induction l as [|a l IH]; intros [|i]; cbn; try reflexivity. rewrite IH. reflexivity. Qed.
Lemma upd_prefix {A} (l : list A) i a : (i < length l)%nat -> firstn (S i) (list_upd l i a) = firstn i l ++ [a].
Proof. revert l. induction i as [|i IH]; intros [|x l] h; cbn in h; try lia; [reflexivity|]. cbn [list_upd]. change (firstn (S (S i)) (x :: list_upd l i a)) with (x :: firstn (S i) (list_upd l i a)). rewrite IH by lia. reflexivity. Qed.
Lemma upd_suffix {A} (l : list A) i o a : (o <= i)%nat -> nth_error l i = Some a -> skipn i (list_upd l o a) = skipn i l.
Proof.
  revert l o. induction i as [|i IH]; intros [|x l] o h e; try discriminate e.
  - destruct o as [|o]; [|lia]. cbn in e. injection e as <-. reflexivity.
  - destruct o as [|o]; [reflexivity|]. cbn [list_upd skipn]. apply IH; [lia|exact e].
Qed.
Lemma skip_nth {A} (l : list A) i x m : skipn i l = x :: m -> nth_error l i = Some x /\ skipn (S i) l = m /\ (i < length l)%nat.
Proof. revert l. induction i as [|i IH]; intros [|y l] e; cbn [skipn] in e; try discriminate e; [injection e as <- <-; cbn; repeat split; lia|]. destruct (IH l e) as (h1 & h2 & h3). cbn. repeat split; [exact h1|exact h2|lia]. Qed.
Lemma loop_dedup : forall rest prev i o values, (1 <= o <= i)%nat -> skipn (i - 1) values = prev :: rest ->
  removeLoop compare (length rest) i o values = firstn o values ++ dedup prev rest.
Proof.
  induction rest as [|a rest IH]; intros prev i o values h e.
  - cbn [length removeLoop dedup]. rewrite app_nil_r. reflexivity.
  - destruct (skip_nth values (i - 1) prev (a :: rest) e) as (h1 & h2 & h3). replace (S (i - 1)) with i in h2 by lia. destruct (skip_nth values i a rest h2) as (h4 & _ & h5).
    cbn [length removeLoop]. rewrite h4, h1. cbn [dedup]. destruct (negb (compare a prev =? 0)).
    + rewrite (IH a (S i) (S o)); [|lia|]. { rewrite upd_prefix by lia. rewrite <- app_assoc. reflexivity. }
      replace (S i - 1)%nat with i by lia. rewrite upd_suffix; [exact h2|lia|exact h4].
    + apply IH; [lia|]. replace (S i - 1)%nat with i by lia. exact h2.
Qed.
Lemma dedup_spec p : forall rest prev, property prev = p -> (forall t, In t rest -> property t = p) -> in_order (fun a b => rank a <= rank b) (prev :: rest) ->
  in_order (fun a b => rank a < rank b) (prev :: dedup prev rest) /\ (forall t, In t (dedup prev rest) -> In t rest) /\
  (forall t, In t rest -> exists t', In t' (prev :: dedup prev rest) /\ rank t' = rank t).
Proof.
  induction rest as [|a rest IH]; intros prev hp hr hs.
  - cbn. split; [exact (in_order_cons _ _ _ (Forall_nil _) (in_order_nil _))|]. split; [intros t []|intros t []].
  - inversion hs as [|? ? h1 h2]; subst. inversion h1 as [|? ? h3 h4]; subst.
    destruct (IH a) as (k1 & k2 & k3); [apply hr; left; reflexivity|intros t ht; apply hr; right; exact ht|exact h2|].
    assert (he : property a = property prev) by (apply hr; left; reflexivity). destruct (hord a prev he) as [hc _].
    assert (hall : Forall (fun t => rank a < rank t) (dedup a rest)) by (inversion k1; assumption).
    cbn [dedup]. destruct (Z.eqb_spec (compare a prev) 0) as [e|e]; cbn [negb].
    + apply hc in e. split; [|split].
      * constructor; [|inversion k1; assumption]. revert hall. apply Forall_impl. intros t. rewrite e. auto.
      * intros t ht. right. apply k2, ht.
      * intros t [<-|ht]; [exists prev; split; [left; reflexivity|congruence]|]. destruct (k3 t ht) as (t' & [<-|h] & e'); [exists prev; split; [left; reflexivity|congruence]|]. exists t'. split; [right; exact h|exact e'].
    + assert (rank prev < rank a). { assert (rank a <> rank prev) by (intros e'; apply e, hc, e'). lia. }
      split; [|split].
      * constructor; [|exact k1]. constructor; [lia|]. revert hall. apply Forall_impl. intros t. lia.
      * intros t [<-|ht]; [left; reflexivity|right; apply k2, ht].
      * intros t [<-|ht]; [exists a; split; [right; left; reflexivity|reflexivity]|]. destruct (k3 t ht) as (t' & h & e'). exists t'. split; [right; exact h|exact e'].
Qed.
Lemma remove_spec p l : (forall t, In t l -> property t = p) ->
  let r := removeDuplicates compare sort l in
  in_order (fun a b => rank a < rank b) r /\ (forall t, In t r -> In t l) /\ (forall t, In t l -> exists t', In t' r /\ rank t' = rank t).
Proof.
  intros hp. cbv zeta. unfold removeDuplicates. destruct (Nat.ltb_spec (length l) 2) as [h|h].
  - split; [|split; [auto|intros t ht; exists t; auto]]. destruct l as [|a [|b l]]; [constructor|constructor; constructor|cbn in h; lia].
  - destruct (hsort l) as (h1 & h2 & h3). { intros a b ha hb. rewrite (hp a ha), (hp b hb). reflexivity. }
    destruct (sort l) as [|prev rest] eqn:e; [cbn in h2; lia|].
    replace (length (prev :: rest) - 1)%nat with (length rest) by (cbn; lia).
    rewrite (loop_dedup rest prev 1 1 (prev :: rest)) by (try reflexivity; lia). cbn [firstn app].
    destruct (dedup_spec p rest prev) as (k1 & k2 & k3); [apply hp, h1; left; reflexivity|intros t ht; apply hp, h1; right; exact ht|exact h3|].
    split; [exact k1|]. split.
    + intros t [<-|ht]; apply h1; [left; reflexivity|right; apply k2, ht].
    + intros t ht. apply h1 in ht. destruct ht as [<-|ht]; [exists prev; split; [left; reflexivity|reflexivity]|]. apply k3, ht.
Qed.

Lemma insert_spec p l : in_order Z.lt l -> in_order Z.lt (insert_key p l) /\ forall q, In q (insert_key p l) <-> q = p \/ In q l.
Proof.
  induction 1 as [|a l ha hl IH]; cbn [insert_key].
  - split; [constructor; constructor|]. intros q. cbn. intuition.
  - destruct (Z.ltb_spec p a).
    + split; [|intros q; cbn; intuition]. constructor; [|constructor; assumption]. constructor; [lia|]. revert ha. apply Forall_impl. intros b. lia.
    + destruct (Z.eqb_spec p a) as [->|].
      * split; [constructor; assumption|]. intros q. cbn. intuition.
      * destruct IH as [IH1 IH2]. split; [|intros q; cbn; rewrite IH2; intuition]. constructor; [|exact IH1].
        apply Forall_forall. intros q hq. apply IH2 in hq. destruct hq as [->|hq]; [lia|]. rewrite Forall_forall in ha. apply ha, hq.
Qed.
Lemma properties_spec tests : in_order Z.lt (properties property tests) /\ forall p, In p (properties property tests) <-> exists t, In t tests /\ property t = p.
Proof.
  induction tests as [|t tests [IH1 IH2]]; cbn [properties fold_right].
  - split; [constructor|]. intros p. split; [intros []|intros (t & [] & _)].
  - destruct (insert_spec (property t) (properties property tests) IH1) as [h1 h2]. split; [exact h1|]. intros p. rewrite (h2 p). rewrite IH2. split.
    + intros [->|(u & hu & e)]; [exists t; split; [left; reflexivity|reflexivity]|exists u; split; [right; exact hu|exact e]].
    + intros (u & [<-|hu] & e); [left; symmetry; exact e|right; exists u; auto].
Qed.
Lemma cases_spec tests : let cs := cases property compare sort tests in
  (forall c, In c cs -> c <> [] /\ in_order (fun a b => rank a < rank b) c /\ forall t, In t c -> In t tests) /\
  in_order (fun c c' => forall t t', In t c -> In t' c' -> property t < property t') cs /\
  (forall c t t', In c cs -> In t c -> In t' c -> property t = property t') /\
  (forall t, In t tests -> exists c t', In c cs /\ In t' c /\ property t' = property t /\ rank t' = rank t).
Proof.
  cbv zeta. unfold cases. destruct (properties_spec tests) as [hs hin].
  assert (hr := fun p => remove_spec p (filter (fun t => property t =? p) tests)). cbv zeta in hr.
  assert (hf : forall p t, In t (filter (fun t => property t =? p) tests) <-> In t tests /\ property t = p). { intros p t. rewrite filter_In, Z.eqb_eq. reflexivity. }
  assert (hr' : forall p, in_order (fun a b => rank a < rank b) (removeDuplicates compare sort (filter (fun t => property t =? p) tests)) /\
     (forall t, In t (removeDuplicates compare sort (filter (fun t => property t =? p) tests)) -> In t tests /\ property t = p) /\
     (forall t, In t tests -> property t = p -> exists t', In t' (removeDuplicates compare sort (filter (fun t => property t =? p) tests)) /\ rank t' = rank t)).
  { intros p. destruct (hr p) as (h1 & h2 & h3); [intros t ht; apply hf, ht|]. split; [exact h1|]. split; [intros t ht; apply hf, h2, ht|]. intros t ht e. apply h3, hf. auto. }
  clear hr. split; [|split; [|split]].
  - intros c hc. apply in_map_iff in hc. destruct hc as (p & <- & hp). destruct (hr' p) as (h1 & h2 & h3). split; [|split; [exact h1|intros t ht; apply h2, ht]].
    apply hin in hp. destruct hp as (t & ht & e). destruct (h3 t ht e) as (t' & h & _). intros e'. rewrite e' in h. destruct h.
  - clear hin. induction hs as [|p ps hp hps IH]; [constructor|]. cbn [map]. constructor; [|exact IH].
    apply Forall_forall. intros c hc t t' ht ht'. apply in_map_iff in hc. destruct hc as (q & <- & hq). rewrite Forall_forall in hp. specialize (hp q hq).
    apply hr' in ht. apply hr' in ht'. lia.
  - intros c t t' hc ht ht'. apply in_map_iff in hc. destruct hc as (p & <- & _). apply hr' in ht. apply hr' in ht'. destruct ht, ht'. congruence.
  - intros t ht. destruct (hr' (property t)) as (h1 & h2 & h3). destruct (h3 t ht eq_refl) as (t' & h & e). eexists _, t'. split; [apply in_map_iff; exists (property t); split; [reflexivity|apply hin; exists t; auto]|].
    split; [exact h|]. split; [apply h2, h|exact e].
Qed.
End Remove.
