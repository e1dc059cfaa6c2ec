(** Facts about the world of the conformance tests, over all histories. *)
From Verif Require Import Base Host GoAdapter GoStorage Lfvm Ct CtRules SpecWorld.
From Coq Require Import Lia ZArith List Bool.
Import ListNotations.
Open Scope Z_scope.

Section Facts.
Variable tx : tx_context.
Notation do_ := (perform (ct_rc tx) ct_Call).
Notation run := (after (ct_rc tx) ct_Call).

Lemma run_snoc w h o : run w (h ++ [o]) = do_ (run w h) o.
Proof. unfold after. rewrite fold_left_app. reflexivity. Qed.
Lemma last_snoc f h o : last_write f (h ++ [o]) = match f o with Some v => Some v | None => last_write f h end.
Proof. unfold last_write. rewrite fold_left_app. reflexivity. Qed.
Lemma word_small v : is_word v -> word v = v.
Proof. intros h. unfold is_word in h. unfold word. apply Z.mod_small. exact h. Qed.

(** what an operation does to each component *)
Lemma do_current w o : w_current (do_ w o) = match o with SetsStorage _ k v => (k, v) :: w_current w | _ => w_current w end.
Proof. destruct o; cbn; try reflexivity. Qed.
Lemma do_original w o : w_original (do_ w o) = w_original w.
Proof. destruct o; reflexivity. Qed.
Lemma do_transient w o : w_transient (do_ w o) = match o with SetsTransient _ k v => w_transient (TSet k v w) | _ => w_transient w end.
Proof. destruct o; reflexivity. Qed.
Lemma do_warm w o : w_warm (do_ w o) = match o with AccessesStorage _ k => insert (w_warm w) k | _ => w_warm w end.
Proof. destruct o; reflexivity. Qed.
Lemma do_warm_accounts w o : w_warm_accounts (do_ w o) = match o with AccessesAccount a => insert (w_warm_accounts w) a | _ => w_warm_accounts w end.
Proof. destruct o; reflexivity. Qed.
Lemma do_accounts w o : w_accounts (do_ w o) = w_accounts w.
Proof. destruct o; reflexivity. Qed.
Lemma do_hashes w o : w_hashes (do_ w o) = w_hashes w.
Proof. destruct o; reflexivity. Qed.
Lemma do_logs w o : w_logs (do_ w o) = w_logs w ++ match o with EmitsLog _ t d => [(t, d)] | _ => [] end.
Proof. destruct o; cbn; rewrite ?app_nil_r; reflexivity. Qed.
Lemma do_journal w o : w_journal (do_ w o) = w_journal w ++ match o with SelfDestructs a b => [(a, b)] | _ => [] end.
Proof. destruct o; cbn; rewrite ?app_nil_r; reflexivity. Qed.
Lemma do_destructed w o : w_destructed (do_ w o) = match o with SelfDestructs _ _ => true | _ => w_destructed w end.
Proof. destruct o; reflexivity. Qed.
Definition past_of (o : operation) : list past_call :=
  match o with Calls kind p => [mkPast kind (cp_recipient p) (cp_sender p) (cp_input p) (cp_value p) (cp_gas p) (cp_code_address p)] | _ => [] end.
Lemma do_past w o : w_past (do_ w o) = w_past w ++ past_of o.
Proof. destruct o; cbn; rewrite ?app_nil_r; reflexivity. Qed.
Lemma do_future w o : w_future (do_ w o) = if is_call o then tl (w_future w) else w_future w.
Proof. destruct o; reflexivity. Qed.

Lemma entry_filter {A} (m : list (Z * A)) k k' z : entry (filter (fun e => negb (fst e =? k)) m) k' z = if k' =? k then z else entry m k' z.
Proof.
  induction m as [|[x v] m hm]; cbn [filter fst entry]; [destruct (k' =? k); reflexivity|].
  destruct (Z.eqb_spec x k) as [->|hx]; cbn [negb entry].
  - rewrite hm. destruct (Z.eqb_spec k' k) as [->|hk]; [reflexivity|]. destruct (Z.eqb_spec k k'); [lia|reflexivity].
  - rewrite hm. destruct (Z.eqb_spec k' k) as [->|hk]; [destruct (Z.eqb_spec x k); [lia|reflexivity]|reflexivity].
Qed.
Lemma tset_get w k v k' : TGet (TSet k v w) k' = if k =? k' then word v else TGet w k'.
Proof.
  unfold TGet, TSet. cbn [w_transient]. destruct (Z.eqb_spec v 0) as [->|hv].
  - rewrite entry_filter, (Z.eqb_sym k' k). destruct (k =? k'); reflexivity.
  - cbn [entry]. destruct (Z.eqb_spec k k') as [->|hk]; [reflexivity|]. rewrite entry_filter. destruct (Z.eqb_spec k' k); [lia|reflexivity].
Qed.
Lemma contains_insert l a b : contains (insert l a) b = (a =? b) || contains l b.
Proof.
  unfold insert. destruct (contains l a) eqn:e; [|unfold contains; cbn [existsb]; rewrite (Z.eqb_sym b a); reflexivity].
  destruct (Z.eqb_spec a b) as [<-|n]; [rewrite e; reflexivity|reflexivity].
Qed.

Lemma storage_kept w h : Forall writes_words h -> forall a k, rc_storage (ct_rc tx) (run w h) a k = or_else (last_write (storage_write k) h) (rc_storage (ct_rc tx) w a k).
Proof.
  intros hw a k. induction h as [|o h ih] using rev_ind; [reflexivity|]. apply Forall_app in hw. destruct hw as [hw ho]. inversion ho as [|? ? ho' _]; subst.
  rewrite run_snoc, last_snoc. specialize (ih hw). cbn [ct_rc rc_storage] in *. unfold GetCurrent in *. rewrite do_current.
  destruct o; cbn [storage_write]; try exact ih. cbn [entry writes_words] in *. destruct (k0 =? k); [cbn [or_else]; apply word_small; exact ho'|exact ih].
Qed.
Lemma transient_kept w h : Forall writes_words h -> forall a k, rc_transient (ct_rc tx) (run w h) a k = or_else (last_write (transient_write k) h) (rc_transient (ct_rc tx) w a k).
Proof.
  intros hw a k. induction h as [|o h ih] using rev_ind; [reflexivity|]. apply Forall_app in hw. destruct hw as [hw ho]. inversion ho as [|? ? ho' _]; subst.
  rewrite run_snoc, last_snoc. specialize (ih hw). cbn [ct_rc rc_transient] in *.
  destruct o; cbn [transient_write]; try (unfold TGet in *; rewrite do_transient; exact ih).
  change (do_ (run w h) (SetsTransient a0 k0 v)) with (TSet k0 v (run w h)). rewrite tset_get. destruct (k0 =? k); [cbn [or_else]; apply word_small; exact ho'|exact ih].
Qed.
Lemma original_kept w h k : GetOriginal (run w h) k = GetOriginal w k.
Proof. induction h as [|o h ih] using rev_ind; [reflexivity|]. rewrite run_snoc. unfold GetOriginal in *. rewrite do_original. exact ih. Qed.
Lemma status_write o c n : GetStorageStatus o c n = write_status o c n.
Proof.
  unfold GetStorageStatus, write_status. rewrite (Z.eqb_sym c n).
  repeat match goal with |- context [?a =? ?b] => let e := fresh in destruct (Z.eqb_spec a b) as [e|e]; cbn [negb andb]; try reflexivity; try (exfalso; lia) end.
Qed.
Lemma status_kept w h a k v : Forall writes_words h ->
  fst (rc_set_storage (ct_rc tx) (run w h) a k v) = write_status (GetOriginal w k) (or_else (last_write (storage_write k) h) (GetCurrent w k)) v.
Proof.
  intros hw. cbn [ct_rc rc_set_storage fst]. rewrite status_write, original_kept. f_equal. exact (storage_kept w h hw a k).
Qed.

Lemma if_status (b : bool) (w' : ctw) : fst (if b then WARM else COLD, w') = WARM <-> b = true.
Proof. destruct b; cbn; split; congruence. Qed.
Lemma contains_in l a : contains l a = true <-> In a l.
Proof. unfold contains. rewrite existsb_exists. split; [intros (x & hx & e); apply Z.eqb_eq in e; subst; exact hx|intros h; exists a; split; [exact h|apply Z.eqb_refl]]. Qed.
Lemma account_warm w h a : fst (rc_access_account (ct_rc tx) (run w h) a) = WARM <-> fst (rc_access_account (ct_rc tx) w a) = WARM \/ In (AccessesAccount a) h.
Proof.
  cbn [ct_rc rc_access_account]. rewrite !if_status. unfold AccIsWarm. induction h as [|o h ih] using rev_ind; [cbn; tauto|].
  rewrite run_snoc, do_warm_accounts, in_app_iff. cbn [In]. destruct o; try (rewrite ih; split; [tauto|intros [|[|[e|[]]]]; try tauto; discriminate e]).
  rewrite contains_insert, orb_true_iff, ih, Z.eqb_eq. split; [intros [->|[|]]; tauto|intros [|[|[e|[]]]]; try tauto; left; congruence].
Qed.
Lemma storage_warm w h a k : fst (rc_access_storage (ct_rc tx) (run w h) a k) = WARM <-> fst (rc_access_storage (ct_rc tx) w a k) = WARM \/ exists a', In (AccessesStorage a' k) h.
Proof.
  cbn [ct_rc rc_access_storage]. rewrite !if_status. unfold IsWarm. induction h as [|o h ih] using rev_ind; [cbn; split; [tauto|intros [|[? []]]; assumption]|].
  rewrite run_snoc, do_warm. 
  assert (snoc : (exists a', In (AccessesStorage a' k) (h ++ [o])) <-> (exists a', In (AccessesStorage a' k) h) \/ exists a', o = AccessesStorage a' k).
  { split; [intros [a' i]; apply in_app_iff in i; destruct i as [i|[i|[]]]; [left; exists a'; exact i|right; exists a'; exact i]|intros [[a' i]|[a' e]]; exists a'; apply in_app_iff; [left; exact i|right; left; exact e]]. }
  rewrite snoc. destruct o; try (rewrite ih; split; [tauto|intros [|[|[? e]]]; try tauto; discriminate e]).
  rewrite contains_insert, orb_true_iff, ih, Z.eqb_eq. split; [intros [->|[|]]; [right; right; exists a0; reflexivity|tauto|tauto]|intros [|[|[? e]]]; try tauto; left; congruence].
Qed.
Lemma destructs w h a b : fst (rc_selfdestruct (ct_rc tx) (run w h) a b) = true <-> w_destructed w = false /\ forall x y, ~ In (SelfDestructs x y) h.
Proof.
  cbn [ct_rc rc_selfdestruct fst]. rewrite negb_true_iff. induction h as [|o h ih] using rev_ind; [cbn; split; [intros e; split; [exact e|tauto]|tauto]|].
  rewrite run_snoc, do_destructed. destruct o; try (rewrite ih; split; [intros [e n]; split; [exact e|]; intros x y i; apply in_app_iff in i; destruct i as [i|[i|[]]]; [exact (n x y i)|discriminate i]|
    intros [e n]; split; [exact e|]; intros x y i; apply (n x y); apply in_app_iff; left; exact i]).
  split; [discriminate|]. intros [_ n]. exfalso. apply (n a0 beneficiary). apply in_app_iff. right. left. reflexivity.
Qed.
Lemma logs_kept w h : w_logs (run w h) = w_logs w ++ flat_map (fun o => match o with EmitsLog _ t d => [(t, d)] | _ => [] end) h.
Proof. induction h as [|o h ih] using rev_ind; [cbn; rewrite app_nil_r; reflexivity|]. rewrite run_snoc, do_logs, ih, flat_map_app, <- app_assoc. cbn [flat_map]. rewrite app_nil_r. reflexivity. Qed.
Lemma journal_kept w h : w_journal (run w h) = w_journal w ++ flat_map (fun o => match o with SelfDestructs a b => [(a, b)] | _ => [] end) h.
Proof. induction h as [|o h ih] using rev_ind; [cbn; rewrite app_nil_r; reflexivity|]. rewrite run_snoc, do_journal, ih, flat_map_app, <- app_assoc. cbn [flat_map]. rewrite app_nil_r. reflexivity. Qed.
Lemma past_kept w h : w_past (run w h) = w_past w ++ flat_map past_of h.
Proof. induction h as [|o h ih] using rev_ind; [cbn; rewrite app_nil_r; reflexivity|]. rewrite run_snoc, do_past, ih, flat_map_app, <- app_assoc. cbn [flat_map]. rewrite app_nil_r. reflexivity. Qed.
Lemma future_kept w h : w_future (run w h) = skipn (length (filter is_call h)) (w_future w).
Proof.
  induction h as [|o h ih] using rev_ind; [reflexivity|]. rewrite run_snoc, do_future, ih, filter_app, app_length. cbn [filter]. destruct (is_call o); cbn [length]; [|rewrite Nat.add_0_r; reflexivity].
  rewrite Nat.add_1_r. generalize (length (filter is_call h)). clear. intros n. generalize (w_future w). induction n as [|n hn]; intros l; [destruct l; reflexivity|].
  destruct l as [|x l]; [reflexivity|]. exact (hn l).
Qed.
Lemma calls_kept w h kind p :
  ct_Call (run w h) kind p =
  (Some match nth_error (w_future w) (length (filter is_call h)) with
        | Some r => mkCallResult (fc_output r) (if cp_gas p <? fc_costs r then 0 else s64 (cp_gas p - fc_costs r)) (fc_refund r) (fc_created r) (fc_success r)
        | None => mkCallResult [] (if cp_gas p <? 0 then 0 else s64 (cp_gas p)) 0 0 false
        end, run w (h ++ [Calls kind p])).
Proof.
  rewrite run_snoc. unfold perform. unfold ct_Call at 1 2, JournalCall at 1 2. cbn [snd]. f_equal. f_equal. rewrite future_kept.
  generalize (length (filter is_call h)), (w_future w). clear. intros n. induction n as [|n hn]; intros [|x l]; cbn [skipn nth_error]; try apply hn; cbn [fc_output fc_costs fc_refund fc_created fc_success]; rewrite ?Z.sub_0_r; reflexivity.
Qed.
Lemma accounts_kept w h a : rc_balance (ct_rc tx) (run w h) a = rc_balance (ct_rc tx) w a /\ rc_code (ct_rc tx) (run w h) a = rc_code (ct_rc tx) w a /\
  rc_code_size (ct_rc tx) (run w h) a = rc_code_size (ct_rc tx) w a /\ rc_nonce (ct_rc tx) (run w h) a = 0.
Proof.
  assert (e : w_accounts (run w h) = w_accounts w) by (induction h as [|o h ih] using rev_ind; [reflexivity|rewrite run_snoc, do_accounts; exact ih]).
  cbn [ct_rc rc_balance rc_code rc_code_size rc_nonce]. unfold GetBalance, GetCode. rewrite e. repeat split; reflexivity.
Qed.
Lemma block_hash w h n : 0 <= tx_number tx < 2 ^ 63 ->
  rc_block_hash (ct_rc tx) (run w h) n = if (0 <=? n) && (tx_number tx - 256 <=? n) && (n <? tx_number tx) then word (nth (Z.to_nat (tx_number tx - 1 - n)) (w_hashes w) 0) else 0.
Proof.
  intros hn. assert (e : w_hashes (run w h) = w_hashes w) by (induction h as [|o h ih] using rev_ind; [reflexivity|rewrite run_snoc, do_hashes; exact ih]).
  cbn [ct_rc rc_block_hash]. unfold hash_at. rewrite e. replace (s64 (tx_number tx)) with (tx_number tx).
  2:{ unfold s64, u64. rewrite Z.mod_small by lia. destruct (Z.ltb_spec (tx_number tx) (2 ^ 63)); lia. }
  replace (tx_number tx - n - 1) with (tx_number tx - 1 - n) by lia.
  destruct (Z.ltb_spec 256 (tx_number tx)), (Z.leb_spec 0 n), (Z.leb_spec (tx_number tx - 256) n), (Z.ltb_spec n (tx_number tx)); cbn [andb];
  match goal with |- context [n <? ?m] => destruct (Z.ltb_spec n m) end; destruct (Z.leb_spec (tx_number tx) n); cbn [orb]; try reflexivity; exfalso; lia.
Qed.
End Facts.

Lemma s64_small z : 0 <= z < 2 ^ 63 -> s64 z = z.
Proof. intros h. unfold s64. rewrite Z.mod_small by lia. destruct (Z.ltb_spec z (2 ^ 63)); lia. Qed.
Definition answer (r : option future_call) (gas : Z) : call_result :=
  match r with
  | Some r => mkCallResult (fc_output r) (Z.max 0 (gas - fc_costs r)) (fc_refund r) (fc_created r) (fc_success r)
  | None => mkCallResult [] gas 0 0 false
  end.
Lemma calls_answered tx w h kind p : 0 <= cp_gas p < 2 ^ 63 -> Forall (fun r => 0 <= fc_costs r) (w_future w) ->
  fst (ct_Call (after (ct_rc tx) ct_Call w h) kind p) = Some (answer (nth_error (w_future w) (length (filter is_call h))) (cp_gas p)).
Proof.
  intros hg hc. rewrite calls_kept. cbn [fst]. f_equal. destruct (nth_error (w_future w) (length (filter is_call h))) as [r|] eqn:e; unfold answer.
  - apply nth_error_In in e. rewrite Forall_forall in hc. specialize (hc r e). cbn beta in hc. f_equal. destruct (Z.ltb_spec (cp_gas p) (fc_costs r)); [lia|]. rewrite s64_small by lia. lia.
  - destruct (Z.ltb_spec (cp_gas p) 0); [lia|]. rewrite s64_small by lia. reflexivity.
Qed.
Lemma status_of tx w h a k v : Forall writes_words h ->
  fst (rc_set_storage (ct_rc tx) (after (ct_rc tx) ct_Call w h) a k v) =
  write_status (GetOriginal w k) (rc_storage (ct_rc tx) (after (ct_rc tx) ct_Call w h) a k) v.
Proof. intros hw. rewrite status_kept by exact hw. f_equal. symmetry. exact (storage_kept tx w h hw a k). Qed.
