(** The rules of the conformance tests describe the EVM: storage and accounts. *)
From Verif Require Import Base Host Uint256 SpecEvm SpecVm ArithFacts MemFacts JumpFacts GoAdapter GoStorage LfvmCode Lfvm LfvmSim LfvmOps SpecLfvm Ct SpecCt PropFacts2 CtRules SpecRules CtRuleFacts CtMemFacts CtSound CtSound2 CtSound3 CtSound4.
From Coq Require Import Lia ZArith List Bool.
Import ListNotations.
Open Scope Z_scope.

Ltac conds h := rewrite ?Forall_cons_iff in h; decompose [and] h; clear h;
  repeat match goal with
  | k : CtRuleFacts.holds _ _ (RevisionBounds _ _) |- _ => apply holds_rev in k
  | k : CtRuleFacts.holds _ _ (IsRevision _) |- _ => apply holds_rev in k
  | k : CtRuleFacts.holds _ _ (ReadOnly _) |- _ => apply holds_ro in k
  | k : Forall _ [] |- _ => clear k
  end.
Ltac cond0 co k := unfold CtRuleFacts.holds in k; cbn [check] in k; apply on_param in k; [|lia]; apply (arg0 _ _ _ _ _ co) in k; cbv beta in k.
Ltac cond1 co k := unfold CtRuleFacts.holds in k; cbn [check] in k; apply on_param in k; [|lia]; apply (arg1 _ _ _ _ _ _ co) in k; cbv beta in k.
Ltac cond2 co k := unfold CtRuleFacts.holds in k; cbn [check] in k; apply on_param in k; [|lia]; apply (arg2 _ _ _ _ _ _ _ co) in k; cbv beta in k.

Section Sound.
Variable tx : tx_context.
Variable keccak hash : list Z -> Z.
Hypothesis Htx : tx_ok tx.
Notation H := (go_host (ct_rc tx) tx).
Notation call := (answers ct_Call).
Notation msg_of b := (message_of (ToVmParameters hash b)).
Notation Step := (Step tx keccak hash).
Notation Exec := (Exec tx keccak hash).
Notation rule_ok := (rule_ok tx keccak hash).
Notation holds := (holds tx).

(** instructions of all revisions whose fee depends on the state, which the conditions of the rule describe *)
Lemma priced_ok i a r : SpecEvm.instruction (i_op i) = Some (mkInstr a r 0 Istanbul false) -> i_op i <> 0 -> 0 <= i_gas i -> i_pops i = a -> i_pushes i = r -> r <= a + 1 ->
  (forall b rv st, ctx_ok b rv st -> Forall (holds b) (i_conditions i) -> code_at (ct_code b) (ct_pc b) = i_op i -> a <= zlen st -> zlen st - a + r <= 1024 ->
     (ct_gas b < i_gas i -> exists e f, Exec b rv (i_op i) (Paid b st 0) = Fail e f) /\
     (i_gas i <= ct_gas b -> agrees b (i_effect i (paid b st (i_gas i))) (Exec b rv (i_op i) (Paid b st 0)))) ->
  Forall rule_ok (rulesFor i).
Proof.
  intros hi h0 hf e2 e3 hr hD. apply (gen_ok tx keccak hash i _ hi h0); cbn [in_fee in_args in_results in_since in_stateful]; try lia.
  - intros b rv _ _. left. split; [|exact e2]. split; [destruct rv; reflexivity|discriminate].
  - intros b rv st co hh hop _ hl1 hl2 hg. apply (hD b rv st co hh hop hl1 hl2). lia.
  - intros b rv st co hh hop _ hl1 hl2 hg. apply (hD b rv st co hh hop hl1 hl2). exact hg.
Qed.

(** ** Accounts *)
Lemma warm_account a w : AccIsWarm w a = true -> AccMarkWarm a w = w.
Proof. intros h. unfold AccMarkWarm, insert. unfold AccIsWarm in h. rewrite h. destruct w; reflexivity. Qed.
Lemma warm_slot k w : IsWarm w k = true -> MarkWarm k w = w.
Proof. intros h. unfold MarkWarm, insert. unfold IsWarm in h. rewrite h. destruct w; reflexivity. Qed.
Lemma account_price b rv st fee a : In (ct_revision b, rv) revisions ->
  account_cost H rv (Paid b st fee) a =
  (if ct_revision b =? 0 then 700 else if AccIsWarm (ct_world b) a then 100 else 2600,
   if ct_revision b =? 0 then Paid b st fee else with_world (AccMarkWarm a (ct_world b)) (Paid b st fee)).
Proof.
  intros hr. unfold account_cost. rewrite (rev_at b rv _ hr). cbn [from_rev]. apply rev_in in hr. destruct (Z.leb_spec 1 (ct_revision b)); destruct (Z.eqb_spec (ct_revision b) 0); try lia; [|reflexivity].
  cbn [h_access_account go_host ct_rc rc_access_account Paid f_world]. destruct (AccIsWarm (ct_world b) a); reflexivity.
Qed.
Lemma accounts_ok op q qh : SpecEvm.instruction op = Some (mkInstr 1 1 0 Istanbul false) -> op <> 0 -> (forall b rv f, Exec b rv op f = i_account H rv qh f) ->
  (forall b, test_state b -> forall a, q (ct_world b) a = qh (ct_world b) a) -> (forall w a a', qh (AccMarkWarm a' w) a = qh w a) -> Forall rule_ok (accountRules op q).
Proof.
  intros hi h0 hx hq hm.
  assert (one : forall cost conds mark, 0 <= cost ->
    (forall b rv a st, ctx_ok b rv (a :: st) -> Forall (holds b) conds ->
       cost = (if ct_revision b =? 0 then 700 else if AccIsWarm (ct_world b) (bytes20 a) then 100 else 2600) /\ mark = negb ((ct_revision b =? 0) || AccIsWarm (ct_world b) (bytes20 a))) ->
    Forall rule_ok (rulesFor (mkI op cost 1 1 conds (fun s => do! '(a, s) <- pop s; let address := bytes20 a in let s := push (q (ct_world s) address) s in Ok (if mark : bool then set_world (AccMarkWarm address (ct_world s)) s else s))))).
  { intros cost cs mark hc0 hcs. eapply priced_ok; [exact hi|exact h0|exact hc0|reflexivity|reflexivity|lia|]. intros b rv st co hc hop h1 h2. cbn [i_op i_effect i_conditions i_gas] in *. rewrite hx. pose proof (co_gas_small _ _ _ co) as hgs. pose proof (co_gas _ _ _ co) as hg0.
    destruct st as [|a st]; [cbn in h1; lia|]. destruct (hcs b rv a st co hc) as [ec em]. unfold i_account. cbn [Paid f_stack]. change (addr_of a) with (bytes20 a). fold (Paid b (a :: st) 0). rewrite (account_price b rv _ _ _ (co_rev _ _ _ co)). rewrite <- ec. unfold charge.
    assert (eg : f_gas (if ct_revision b =? 0 then Paid b (a :: st) 0 else with_world (AccMarkWarm (bytes20 a) (ct_world b)) (Paid b (a :: st) 0)) = ct_gas b) by (destruct (ct_revision b =? 0); cbn; lia). rewrite eg. split; intros hg; destruct (Z.ltb_spec (ct_gas b) cost); try lia; [eauto|].
    unfold paid. states. rewrite hq by apply co. destruct (ct_revision b =? 0) eqn:er; cbn [orb negb] in em; subst mark.
    - states. unfold Paid. frames. apply agrees_next. apply co.
    - states. unfold Paid. frames. rewrite hm. destruct (AccIsWarm (ct_world b) (bytes20 a)) eqn:ew; cbn [negb]; states; [rewrite (warm_account _ _ ew)|]; apply agrees_next; apply co. }
  unfold accountRules. each; [apply (one 2600 _ true)|apply (one 100 _ false)|apply (one 700 _ false)]; try lia; intros b rv a st co hc; conds hc.
  - match goal with k : CtRuleFacts.holds _ _ (IsAddressCold _) |- _ => cond0 co k; rename k into kc end. apply negb_true_iff in kc. rewrite kc. destruct (Z.eqb_spec (ct_revision b) 0); [lia|]. split; reflexivity.
  - match goal with k : CtRuleFacts.holds _ _ (IsAddressWarm _) |- _ => cond0 co k; rename k into kc end. rewrite kc. destruct (Z.eqb_spec (ct_revision b) 0); [lia|]. split; reflexivity.
  - destruct (Z.eqb_spec (ct_revision b) 0); [|lia]. split; reflexivity.
Qed.
Lemma account_ok b a : test_state b -> 0 <= GetBalance (ct_world b) a /\ zlen (GetCode (ct_world b) a) < 2 ^ 63 /\ Forall is_byte (GetCode (ct_world b) a).
Proof.
  intros _. split; [apply Z.mod_pos_bound; lia|]. unfold GetCode, byte_slice. destruct (Z.ltb_spec (zlen (snd (entry (w_accounts (ct_world b)) a (0, [])))) (2 ^ 63)) as [h|h]; [|split; [reflexivity|constructor]].
  split; [unfold zlen in *; rewrite map_length; exact h|]. apply Forall_forall. intros x hx. apply in_map_iff in hx. destruct hx as (y & <- & _). apply Z.mod_pos_bound. lia.
Qed.
Lemma balance_ok : Forall rule_ok (accountRules 0x31 GetBalance).
Proof. apply (accounts_ok _ _ (h_get_balance H)); try reflexivity. discriminate. Qed.
Lemma extcodesize_ok : Forall rule_ok (accountRules 0x3B (fun w a => u64 (zlen (GetCode w a)))).
Proof. apply (accounts_ok _ _ (h_get_code_size H)); try reflexivity; [discriminate|]. intros b ht a. destruct (account_ok b a ht) as (_ & h & _). pose proof (zlen_nonneg (GetCode (ct_world b) a)). rewrite u64_small by lia. reflexivity. Qed.
Lemma empty_eq w a : is_empty (ct_rc tx) w a = AccIsEmpty w a.
Proof. unfold is_empty, AccIsEmpty. cbn [ct_rc rc_nonce rc_balance rc_code_size Z.eqb andb]. destruct (GetCode w a) as [|x l]; [reflexivity|]. rewrite zlen_cons. pose proof (zlen_nonneg l). destruct (Z.eqb_spec (zlen l + 1) 0); [lia|]. reflexivity. Qed.
Lemma extcodehash_ok : Forall rule_ok extcodehashRules.
Proof.
  unfold extcodehashRules. apply Forall_flat_map, Forall_forall. intros rev hrev. apply Forall_flat_map, Forall_forall. intros warm _. apply Forall_flat_map, Forall_forall. intros empty _.
  assert (hrev' : 0 <= rev <= 5) by (cbn in hrev; lia).
  eapply priced_ok; [reflexivity|discriminate| |reflexivity|reflexivity|lia|]; [cbn [i_gas]; destruct (rev <? 1), warm; lia|]. intros b rv st co hc hop h1 h2. cbn [i_op i_effect i_conditions i_gas] in *. pose proof (co_gas_small _ _ _ co) as hgs. pose proof (co_gas _ _ _ co) as hg0.
  destruct st as [|a st]; [cbn in h1; lia|]. rewrite !Forall_cons_iff in hc. destruct hc as (c1 & c2 & _ & _). apply holds_rev in c1.
  assert (ew : AccIsWarm (ct_world b) (bytes20 a) = warm) by (destruct warm; cond0 co c2; [|apply negb_true_iff in c2]; exact c2). clear c2.
  unfold CtMemFacts.Exec. cbn [exec]. unfold i_account. cbn [Paid f_stack]. change (addr_of a) with (bytes20 a). fold (Paid b (a :: st) 0). rewrite (account_price b rv _ _ _ (co_rev _ _ _ co)).
  assert (er : (ct_revision b =? 0) = (rev <? 1)) by lia. rewrite er, ew. unfold charge.
  assert (eg : f_gas (if rev <? 1 then Paid b (a :: st) 0 else with_world (AccMarkWarm (bytes20 a) (ct_world b)) (Paid b (a :: st) 0)) = ct_gas b) by (destruct (rev <? 1); cbn; lia). rewrite eg.
  split; intros hg; [destruct (Z.ltb_spec (ct_gas b) (if rev <? 1 then 700 else if warm then 100 else 2600)); [eauto|lia]|]. destruct (Z.ltb_spec (ct_gas b) (if rev <? 1 then 700 else if warm then 100 else 2600)); [lia|]. unfold paid. states.
  cbn [h_get_code_hash go_host]. rewrite !empty_eq. assert (er2 : (1 <=? rev) = negb (rev <? 1)) by lia. rewrite er2. destruct (rev <? 1) eqn:e1; cbn [negb andb].
  - unfold Paid. frames. rewrite ?empty_eq. apply agrees_next. apply co.
  - unfold Paid. frames. rewrite ?empty_eq. change (AccIsEmpty (AccMarkWarm (bytes20 a) (ct_world b)) (bytes20 a)) with (AccIsEmpty (ct_world b) (bytes20 a)). cbn [ct_rc rc_code_hash]. unfold GetCodeHash. destruct warm; cbn [negb]; states; [rewrite (warm_account _ _ ew)|]; apply agrees_next; apply co.
Qed.
Lemma copied_code' code coff n : zlen code < 2 ^ 63 -> 0 <= coff -> 0 <= n ->
  data_bytes (if (coff <? 2 ^ 64) && (0 <? n) then firstn (Z.to_nat n) (skipn (Z.to_nat coff) code) else []) 0 n = data_bytes code coff n.
Proof.
  intros hl hc hn. rewrite !data_bytes_read. apply list_data_ext; [rewrite !read_bytes_zlen; reflexivity|].
  intros i hi. rewrite read_bytes_zlen in hi. rewrite !read_bytes_at by lia. rewrite Z.add_0_l. destruct (Z.ltb_spec 0 n); [|lia]. rewrite andb_true_r.
  destruct (Z.ltb_spec coff (2 ^ 64)).
  - rewrite data_at_firstn by lia. destruct (Z.ltb_spec i n); [|lia]. rewrite data_at_skipn by lia. reflexivity.
  - rewrite (data_at_out code) by lia. apply data_at_out. rewrite zlen_nil. lia.
Qed.
Lemma extcodecopy_ok : Forall rule_ok extcodecopyRules.
Proof.
  assert (one : forall cost conds mark, 0 <= cost ->
    (forall b rv a st, ctx_ok b rv (a :: st) -> Forall (holds b) conds ->
       cost = (if ct_revision b =? 0 then 700 else if AccIsWarm (ct_world b) (bytes20 a) then 100 else 2600) /\ mark = negb ((ct_revision b =? 0) || AccIsWarm (ct_world b) (bytes20 a))) ->
    Forall rule_ok (rulesFor (mkI 0x3C cost 4 0 conds (fun s =>
      do! '(a, s) <- pop s; do! '(dst, s) <- pop s; do! '(off, s) <- pop s; do! '(n, s) <- pop s;
      let address := bytes20 a in
      copyOf dst off n (fun s => GetCode (ct_world s) address) s (fun s => Ok (if mark : bool then set_world (AccMarkWarm address (ct_world s)) s else s)))))).
  { intros cost cs mark hc0 hcs. eapply priced_ok; [reflexivity|discriminate|exact hc0|reflexivity|reflexivity|lia|]. intros b rv st co hc hop h1 h2. cbn [i_op i_effect i_conditions i_gas] in *. pose proof (co_gas_small _ _ _ co) as hgs. pose proof (co_gas _ _ _ co) as hg0. pose proof (co_price _ _ _ co) as hprice. pose proof (co_words _ _ _ co) as hw. pose proof (co_rel _ _ _ co) as hrel.
    pose proof (mem_small _ _ _ _ hrel hg0 hprice) as hsmall.
    destruct st as [|a [|dst [|off [|n st]]]]; try (cbn in h1; lia). rewrite !Forall_cons_iff in hw. destruct hw as (hw1 & hw2 & hw3 & hw4 & hw5). destruct (hcs b rv a _ co hc) as [ec em]. unfold CtMemFacts.Exec. cbn [exec].
    set (fee := Gmem (expand (zlen (ct_mem b)) dst n) - Gmem (zlen (ct_mem b))). pose proof (expand_fee (zlen (ct_mem b)) dst n ltac:(lia)) as hfee. pose proof (words_nonneg n ltac:(unfold is_word in hw4; lia)) as hwn. fold fee in hfee.
    assert (ex : i_extcodecopy H rv (Paid b (a :: dst :: off :: n :: st) 0) =
       if ct_gas b <? cost + (3 * words n + fee) then Fail OutOfGas (if ct_gas b <? fee then Paid b (a :: dst :: off :: n :: st) 0 else if ct_revision b =? 0 then Paid b (a :: dst :: off :: n :: st) fee else with_world (AccMarkWarm (bytes20 a) (ct_world b)) (Paid b (a :: dst :: off :: n :: st) fee))
       else Next (mkFrame (ct_pc b + 1) (ct_gas b - cost - (3 * words n + fee)) st (write_bytes (data_at (ct_mem b)) dst (data_bytes (GetCode (ct_world b) (bytes20 a)) off n)) (expand (zlen (ct_mem b)) dst n) (ct_last b) (ct_refund b)
              (if mark then AccMarkWarm (bytes20 a) (ct_world b) else ct_world b))).
    { unfold i_extcodecopy. cbn [Paid f_stack]. change (addr_of a) with (bytes20 a). fold (Paid b (a :: dst :: off :: n :: st) 0). unfold charge at 1. assert (e0 : f_gas (Paid b (a :: dst :: off :: n :: st) 0) = ct_gas b) by (cbn; lia). rewrite e0. unfold mem_fee. cbn [Paid f_active]. fold (Paid b (a :: dst :: off :: n :: st) 0). fold fee. destruct (Z.ltb_spec (ct_gas b) fee) as [hl|hl].
      - destruct (Z.ltb_spec (ct_gas b) (cost + (3 * words n + fee))); [|lia]. reflexivity.
      - change (with_gas (ct_gas b - fee) (Paid b (a :: dst :: off :: n :: st) 0)) with (Paid b (a :: dst :: off :: n :: st) fee). rewrite (account_price b rv _ _ _ (co_rev _ _ _ co)). rewrite <- ec. unfold charge.
        assert (eg : f_gas (if ct_revision b =? 0 then Paid b (a :: dst :: off :: n :: st) fee else with_world (AccMarkWarm (bytes20 a) (ct_world b)) (Paid b (a :: dst :: off :: n :: st) fee)) = ct_gas b - fee) by (destruct (ct_revision b =? 0); reflexivity). rewrite eg.
        destruct (Z.ltb_spec (ct_gas b - fee) (3 * words n + cost)); destruct (Z.ltb_spec (ct_gas b) (cost + (3 * words n + fee))); try lia; [reflexivity|]. cbv zeta.
        replace (ct_gas b - fee - (3 * words n + cost)) with (ct_gas b - cost - (3 * words n + fee)) by lia. cbn [h_copy_code go_host ct_rc rc_code].
        assert (src : forall w, GetCode w (bytes20 a) = GetCode (ct_world b) (bytes20 a) -> data_bytes (if (off <? 2 ^ 64) && (0 <? n) then firstn (Z.to_nat n) (skipn (Z.to_nat off) (GetCode w (bytes20 a))) else []) 0 n = data_bytes (GetCode (ct_world b) (bytes20 a)) off n).
        { intros w ->. destruct (account_ok b (bytes20 a) (co_test _ _ _ co)) as (_ & hl2 & _). unfold is_word in hw3, hw4. apply copied_code'; lia. }
        destruct (ct_revision b =? 0) eqn:er; cbn [orb negb] in em; subst mark; unfold Paid; unfold touch; frames; cbn [Z.eqb]; [rewrite (src _ eq_refl); reflexivity|]. rewrite (src (AccMarkWarm (bytes20 a) (ct_world b)) eq_refl). destruct (AccIsWarm (ct_world b) (bytes20 a)) eqn:ew; cbn [negb]; [rewrite (warm_account _ _ ew)|]; reflexivity. }
    rewrite ex. split; intros hg; [destruct (Z.ltb_spec (ct_gas b) (cost + (3 * words n + fee))); [eauto|lia]|]. unfold paid. states. destruct (account_ok b (bytes20 a) (co_test _ _ _ co)) as (_ & hl2 & hl3).
    apply (copy_ok _ _ _ _ _ _ _ _ (zlen (ct_mem b)) (data_at (ct_mem b)) dst off n (GetCode (ct_world b) (bytes20 a))); try assumption; try lia; [intros; states; reflexivity| |]; fold fee; intros hge; (destruct (Z.ltb_spec (ct_gas b) (cost + (3 * words n + fee))); [|]; try lia); [eauto|].
    intros m' hm'. states. destruct mark; states; apply agrees_next; exact hm'. }
  unfold extcodecopyRules. each; [apply (one 2600 _ true)|apply (one 100 _ false)|apply (one 700 _ false)]; try lia; intros b rv a st co hc; conds hc.
  - match goal with k : CtRuleFacts.holds _ _ (IsAddressCold _) |- _ => cond0 co k; rename k into kc end. apply negb_true_iff in kc. rewrite kc. destruct (Z.eqb_spec (ct_revision b) 0); [lia|]. split; reflexivity.
  - match goal with k : CtRuleFacts.holds _ _ (IsAddressWarm _) |- _ => cond0 co k; rename k into kc end. rewrite kc. destruct (Z.eqb_spec (ct_revision b) 0); [lia|]. split; reflexivity.
  - destruct (Z.eqb_spec (ct_revision b) 0); [|lia]. split; reflexivity.
Qed.

(** ** Storage *)
Lemma slot_price b rv st fee k : In (ct_revision b, rv) revisions ->
  slot_cost H (msg_of b) rv (Paid b st fee) k =
  (if ct_revision b =? 0 then 800 else if IsWarm (ct_world b) k then 100 else 2100,
   if ct_revision b =? 0 then Paid b st fee else with_world (MarkWarm k (ct_world b)) (Paid b st fee)).
Proof.
  intros hr. unfold slot_cost. rewrite (rev_at b rv _ hr). cbn [from_rev]. apply rev_in in hr. destruct (Z.leb_spec 1 (ct_revision b)); destruct (Z.eqb_spec (ct_revision b) 0); try lia; [|reflexivity].
  cbn [h_access_storage go_host ct_rc rc_access_storage Paid f_world]. destruct (IsWarm (ct_world b) k); reflexivity.
Qed.
Lemma sload_ok : Forall rule_ok sloadRules.
Proof.
  assert (one : forall cost conds mark, 0 <= cost ->
    (forall b rv a st, ctx_ok b rv (a :: st) -> Forall (holds b) conds ->
       cost = (if ct_revision b =? 0 then 800 else if IsWarm (ct_world b) a then 100 else 2100) /\ mark = negb ((ct_revision b =? 0) || IsWarm (ct_world b) a)) ->
    Forall rule_ok (rulesFor (mkI 0x54 cost 1 1 conds (fun s => do! '(key, s) <- pop s; let s := push (GetCurrent (ct_world s) key) s in Ok (if mark : bool then set_world (MarkWarm key (ct_world s)) s else s))))).
  { intros cost cs mark hc0 hcs. eapply priced_ok; [reflexivity|discriminate|exact hc0|reflexivity|reflexivity|lia|]. intros b rv st co hc hop h1 h2. cbn [i_op i_effect i_conditions i_gas] in *. unfold CtMemFacts.Exec. cbn [exec]. pose proof (co_gas_small _ _ _ co) as hgs. pose proof (co_gas _ _ _ co) as hg0.
    destruct st as [|a st]; [cbn in h1; lia|]. destruct (hcs b rv a st co hc) as [ec em]. unfold i_sload. cbn [Paid f_stack]. fold (Paid b (a :: st) 0). rewrite (slot_price b rv _ _ _ (co_rev _ _ _ co)). rewrite <- ec. unfold charge.
    assert (eg : f_gas (if ct_revision b =? 0 then Paid b (a :: st) 0 else with_world (MarkWarm a (ct_world b)) (Paid b (a :: st) 0)) = ct_gas b) by (destruct (ct_revision b =? 0); cbn; lia). rewrite eg. split; intros hg; destruct (Z.ltb_spec (ct_gas b) cost); try lia; [eauto|].
    unfold paid. states. cbn [h_get_storage go_host ct_rc rc_storage]. destruct (ct_revision b =? 0) eqn:er; cbn [orb negb] in em; subst mark.
    - states. unfold Paid. frames. apply agrees_next. apply co.
    - states. unfold Paid. frames. change (GetCurrent (MarkWarm a (ct_world b)) a) with (GetCurrent (ct_world b) a). destruct (IsWarm (ct_world b) a) eqn:ew; cbn [negb]; states; [rewrite (warm_slot _ _ ew)|]; apply agrees_next; apply co. }
  unfold sloadRules. each; [apply (one 2100 _ true)|apply (one 100 _ false)|apply (one 800 _ false)]; try lia; intros b rv a st co hc; conds hc.
  - match goal with k : CtRuleFacts.holds _ _ (IsStorageCold _) |- _ => cond0 co k; rename k into kc end. apply negb_true_iff in kc. rewrite kc. destruct (Z.eqb_spec (ct_revision b) 0); [lia|]. split; reflexivity.
  - match goal with k : CtRuleFacts.holds _ _ (IsStorageWarm _) |- _ => cond0 co k; rename k into kc end. rewrite kc. destruct (Z.eqb_spec (ct_revision b) 0); [lia|]. split; reflexivity.
  - destruct (Z.eqb_spec (ct_revision b) 0); [|lia]. split; reflexivity.
Qed.
Ltac since_entry := eapply since_ok; [reflexivity|discriminate|num|reflexivity|reflexivity|reflexivity|num| |opened].
Ltac revs := let h := fresh "h" in let hin := fresh in intros ? ? hin h; apply rev_in in hin; cbn [i_conditions] in h; conds h; cbn [from_rev]; split; [lia|first [discriminate|intros _; assumption]].
Lemma transient_ok : Forall rule_ok transientRules.
Proof.
  unfold transientRules. each.
  - since_entry; [revs|]. arg st h1 hw k hk. unfold i_tload. frames. states. apply agrees_next. exact hrel.
  - since_entry; [revs|]. arg st h1 hw k hk. conds hc. match goal with x : CtRuleFacts.holds _ _ (TransientZero _) |- _ => cond0 co x; rename x into kc end. apply Z.eqb_eq in kc. unfold i_tload. frames. states. cbn [h_get_transient go_host ct_rc rc_transient]. rewrite kc. apply agrees_next. exact hrel.
  - constructor; [|constructor]. eapply too_early; [reflexivity|cbn; lia].
  - since_entry; [revs|]. arg st h1 hw k hk. arg st h1 hw v hv. unfold i_tstore. frames. states. apply agrees_next. exact hrel.
  - since_entry; [revs|]. arg st h1 hw k hk. arg st h1 hw v hv. unfold i_tstore. frames. states. apply agrees_next. exact hrel.
  - constructor; [|constructor; [|constructor]]; [eapply too_early; [reflexivity|cbn; lia]|]. eapply (refused tx keccak hash 0x5D); [reflexivity|reflexivity| |]; cbn; tauto.
Qed.
End Sound.
