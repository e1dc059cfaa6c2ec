(** The rules of the conformance tests describe the EVM: jumps, ends, storage and accounts. *)
From Verif Require Import Base Host Uint256 SpecEvm SpecVm ArithFacts MemFacts JumpFacts GoAdapter GoStorage LfvmCode Lfvm LfvmSim LfvmOps SpecLfvm Ct SpecCt PropFacts2 CtRules SpecRules CtRuleFacts CtMemFacts CtSound CtSound2 CtSound3.
From Coq Require Import Lia ZArith List Bool.
Import ListNotations.
Open Scope Z_scope.

Section Sound.
Variable tx : tx_context.
Variable keccak hash : list Z -> Z.
Hypothesis Htx : tx_ok tx.
Notation H := (go_host (ct_rc tx) tx).
Notation call := (answers ct_Call).
Notation msg_of b := (message_of (ToVmParameters hash b)).
Notation Step := (Step tx keccak hash).
Notation Exec := (Exec tx keccak hash).
Notation rule_ok := (rule_ok tx keccak hash).
Notation holds := (holds tx).

Ltac since_entry := eapply since_ok; [reflexivity|discriminate|num|reflexivity|reflexivity|reflexivity|num| |opened].
Ltac conds h := rewrite ?Forall_cons_iff in h; decompose [and] h; clear h;
  repeat match goal with
  | k : CtRuleFacts.holds _ _ (RevisionBounds _ _) |- _ => apply holds_rev in k
  | k : CtRuleFacts.holds _ _ (IsRevision _) |- _ => apply holds_rev in k
  | k : CtRuleFacts.holds _ _ (ReadOnly _) |- _ => apply holds_ro in k
  | k : Forall _ [] |- _ => clear k
  end.
Ltac revs := let h := fresh "h" in let hin := fresh in intros ? ? hin h; apply rev_in in hin; cbn [i_conditions] in h; conds h; cbn [from_rev]; split; [lia|first [discriminate|intros _; assumption]].
(** conditions on arguments *)
Lemma arg0 b rv a st P : ctx_ok b rv (a :: st) -> on_arg b 0 P -> P a = true.
Proof. intros co (v & e & h). rewrite (co_stack _ _ _ co) in e. injection e as <-. exact h. Qed.
Lemma arg1 b rv a a' st P : ctx_ok b rv (a :: a' :: st) -> on_arg b 1 P -> P a' = true.
Proof. intros co (v & e & h). rewrite (co_stack _ _ _ co) in e. injection e as <-. exact h. Qed.
Lemma arg2 b rv a a' a2 st P : ctx_ok b rv (a :: a' :: a2 :: st) -> on_arg b 2 P -> P a2 = true.
Proof. intros co (v & e & h). rewrite (co_stack _ _ _ co) in e. injection e as <-. exact h. Qed.
Ltac cond0 co k := unfold CtRuleFacts.holds in k; cbn [check] in k; apply on_param in k; [|lia]; apply (arg0 _ _ _ _ _ co) in k.
Ltac cond1 co k := unfold CtRuleFacts.holds in k; cbn [check] in k; apply on_param in k; [|lia]; apply (arg1 _ _ _ _ _ _ co) in k.

(** ** Ends *)
Lemma stop_ok : Forall rule_ok stopRules.
Proof.
  unfold stopRules. constructor; [|constructor]. intros b rv ht hr hc. cbn [r_conditions r_effect] in *. rewrite !Forall_cons_iff in hc. destruct hc as (_ & _ & c3 & _). rewrite holds_op in c3 by apply (tst_pc b ht). destruct c3 as [c3 c4].
  pose proof (tst_ok b ht) as ok. rewrite (step_exec tx keccak hash b rv _ _ ht c4 eq_refl); [|split; [destruct rv; reflexivity|discriminate]|apply zlen_nonneg|cbn [in_args in_results]; pose proof (ctk_height b ok); lia].
  unfold charge. cbn [FrameIs f_gas in_fee]. pose proof (ctk_gas b ok). destruct (Z.ltb_spec (ct_gas b) 0); [lia|]. unfold CtMemFacts.Exec. cbn [exec]. frames. eexists. split; [reflexivity|]. rewrite Z.sub_0_r.
  unfold same_state, ct_after, ct_update, set_pc, set_ret, set_status. cbn [FrameIs f_pc f_gas f_refund f_world ct_stat ct_revision ct_readonly ct_pc ct_gas ct_refund ct_code ct_mem ct_self ct_caller ct_value ct_calldata ct_last ct_ret ct_world ct_stack].
  split; [reflexivity|]. intros _. repeat (split; [reflexivity|]). symmetry. apply (tst_ret b ht).
Qed.
Lemma invalid_instr op : 0 <= op < 256 -> IsValid op = false -> SpecEvm.instruction op = None.
Proof.
  intros h e. assert (hb : forallb (fun k => IsValid (Z.of_nat k) || match SpecEvm.instruction (Z.of_nat k) with None => true | _ => false end) (seq 0 256) = true) by (vm_compute; reflexivity).
  rewrite forallb_forall in hb. specialize (hb (Z.to_nat op)). rewrite Z2Nat.id in hb by lia. rewrite e in hb. cbn [orb] in hb. destruct (SpecEvm.instruction op); [|reflexivity]. discriminate hb. apply in_seq. lia.
Qed.
Lemma invalid_ok : Forall rule_ok invalidRules.
Proof.
  unfold invalidRules. apply Forall_flat_map, Forall_forall. intros op hop. apply upto_in in hop. destruct (IsValid op) eqn:e; [constructor|]. constructor; [|constructor].
  intros b rv ht hr hc. cbn [r_conditions r_effect] in *. rewrite !Forall_cons_iff in hc. destruct hc as (_ & c3 & _). rewrite holds_op in c3 by apply (tst_pc b ht). unfold CtMemFacts.Step. rewrite (frame_is b ht). unfold step. cbn [FrameIs f_pc f_gas]. rewrite (proj2 c3).
  rewrite (invalid_instr op hop e). destruct (ct_gas b <? 0); apply agrees_fail.
Qed.

(** ** Jumps *)
Lemma behind_code code p : zlen code <= 65500 -> 2 ^ 63 <= p -> IsCodeAt code p = true /\ code_at code p = 0.
Proof.
  intros hl hp. split; [|unfold code_at; apply data_at_out; lia]. apply code_iff; [lia|]. intros (r & r1 & r2 & r3). pose proof (push_len_le (code_at code r)). lia.
Qed.
Lemma word_at b i v : test_state b -> znth (rev (ct_stack b)) i = Some v -> is_word v.
Proof. intros ht e. pose proof (ctk_words b (tst_ok b ht)) as hw. apply Forall_rev in hw. rewrite Forall_forall in hw. apply hw. pose proof (znth_in _ _ _ e) as hi. rewrite (znth_some _ _ 0) in e by exact hi. injection e as <-. apply nth_In. unfold zlen in hi. lia. Qed.
Lemma param_op b i c v : 0 <= i -> test_state b -> holds b (Cmp c (EOp (EParam i)) v) -> on_arg b i (fun p => IsCodeAt (ct_code b) p && compare c (code_at (ct_code b) p) v).
Proof.
  intros hi ht k. unfold CtRuleFacts.holds in k. pose proof (ctk_size b (tst_ok b ht)) as hl. cbn [check] in k. change (eval b (EOp (EParam i))) with (do! pos <- eval b (EParam i); match pos with None => Ok None | Some pos => if negb (isUint64 pos) || (2 ^ 63 - 1 <? pos) then Ok (Some 0) else GetOperation (ct_code b) pos end) in k.
  rewrite eval_param in k by exact hi. cbn [rbind] in k. destruct (znth (rev (ct_stack b)) i) as [p|] eqn:e; [|discriminate k]. exists p. split; [exact e|]. pose proof (word_at b i p ht e) as hp. unfold is_word in hp. unfold isUint64 in k.
  destruct (negb (p <? 2 ^ 64) || (2 ^ 63 - 1 <? p)) eqn:eb.
  - destruct (behind_code (ct_code b) p hl ltac:(lia)) as [-> ->]. cbn [rbind] in k. rewrite ok_true in k. exact k.
  - rewrite GetOperation_eq in k by lia. cbn [rbind] in k. destruct (IsCodeAt (ct_code b) p); [rewrite ok_true in k; exact k|discriminate k].
Qed.
Lemma param_data b i : 0 <= i -> test_state b -> holds b (IsData (EParam i)) -> on_arg b i (fun p => negb (IsCodeAt (ct_code b) p)).
Proof.
  intros hi ht k. unfold CtRuleFacts.holds in k. cbn [check] in k. apply on_param in k; [|exact hi]. destruct k as (v & e & k). exists v. split; [exact e|]. destruct (negb (isUint64 v) || (2 ^ 63 - 1 <? v)); [discriminate k|exact k].
Qed.
Lemma param_ne b i v : 0 <= i -> holds b (Cmp Ne (EParam i) v) -> on_arg b i (fun p => negb (p =? v)).
Proof. intros hi k. unfold CtRuleFacts.holds in k. cbn [check] in k. apply on_param in k; assumption. Qed.
Lemma param_eq b i v : 0 <= i -> holds b (Cmp Eq (EParam i) v) -> on_arg b i (fun p => p =? v).
Proof. intros hi k. unfold CtRuleFacts.holds in k. cbn [check] in k. apply on_param in k; assumption. Qed.
Lemma jump_target d (code : list Z) : is_word d -> zlen code <= 65500 -> is_dest code d = true -> u16 (u64 d) = d.
Proof.
  intros hd hl h. rewrite is_dest_code in h by (unfold is_word in hd; lia). apply andb_true_iff in h. destruct h as [_ h]. apply Z.eqb_eq in h. unfold is_word in hd.
  assert (d < zlen code). { destruct (Z_lt_ge_dec d (zlen code)); [assumption|]. unfold code_at in h. rewrite data_at_out in h by lia. discriminate. }
  rewrite u64_small by lia. unfold u16. apply Z.mod_small. lia.
Qed.
Lemma not_dest b : test_state b -> on_arg b 0 (fun p => negb (IsCodeAt (ct_code b) p)) \/ on_arg b 0 (fun p => IsCodeAt (ct_code b) p && negb (code_at (ct_code b) p =? 0x5B)) ->
  exists d s, rev (ct_stack b) = d :: s /\ is_dest (ct_code b) d = false.
Proof.
  intros ht h. assert (X : on_arg b 0 (fun p => negb (is_dest (ct_code b) p))).
  { destruct h as [(v & e & h)|(v & e & h)]; exists v; (split; [exact e|]); pose proof (word_at b 0 v ht e) as hv; unfold is_word in hv; rewrite is_dest_code by lia; destruct (IsCodeAt (ct_code b) v); destruct (code_at (ct_code b) v =? 0x5B); try reflexivity; discriminate h. }
  destruct X as (v & e & k). destruct (rev (ct_stack b)) as [|d s]; [discriminate e|]. injection e as ->. exists v, s. split; [reflexivity|]. apply negb_true_iff. exact k.
Qed.
Lemma len_rev (b : state) : zlen (rev (ct_stack b)) = zlen (ct_stack b). Proof. unfold zlen. rewrite rev_length. reflexivity. Qed.
Lemma jump_ok : Forall rule_ok jumpRules.
Proof.
  assert (code_ok : forall b rv st, ctx_ok b rv st -> zlen (ct_code b) <= 65500) by (intros b rv st co; apply (ctk_size b (tst_ok b (co_test _ _ _ co)))).
  assert (frame : forall b rv op i, test_state b -> In (ct_revision b, rv) revisions -> code_at (ct_code b) (ct_pc b) = op -> SpecEvm.instruction op = Some i -> in_since i = Istanbul -> in_stateful i = false -> in_results i = 0 -> 0 <= in_args i <= zlen (ct_stack b) -> in_fee i <= ct_gas b ->
    Step b rv = Exec b rv op (with_gas (ct_gas b - in_fee i) (FrameIs b))).
  { intros b rv op i ht hr hop hi h1 h2 h3 h4 h5. rewrite (step_exec tx keccak hash b rv _ _ ht hop hi); [|split; [rewrite h1; destruct rv; reflexivity|congruence]|lia|pose proof (ctk_height b (tst_ok b ht)); lia].
    unfold charge. cbn [FrameIs f_gas]. destruct (Z.ltb_spec (ct_gas b) (in_fee i)); [lia|]. reflexivity. }
  unfold jumpRules. each.
  - entry_ok. arg st h1 hw d hd'. conds hc. match goal with k : CtRuleFacts.holds _ _ (IsJumpdest _) |- _ => apply param_op in k; [|lia|exact (co_test _ _ _ co)]; apply (arg0 _ _ _ _ _ co) in k; cbn [compare] in k; rewrite <- is_dest_code in k by (unfold is_word in hd'; lia); rename k into kd end.
    unfold i_jump. frames. rewrite kd. states. rewrite (jump_target d _ hd' (code_ok _ _ _ co) kd). apply agrees_next. exact hrel.
  - constructor; [|constructor; [|constructor]]; intros b rv ht hr hc; cbn [r_conditions r_effect] in *; conds hc.
    + match goal with k : CtRuleFacts.holds _ _ (OpIs _) |- _ => rewrite holds_op in k by apply (tst_pc b ht); destruct k as [k1 k2] end. match goal with k : CtRuleFacts.holds _ _ (Cmp Ge EGas _) |- _ => apply holds_gas_ge in k end. match goal with k : CtRuleFacts.holds _ _ (Cmp Ge ESize _) |- _ => apply holds_size_ge in k end.
      match goal with k : CtRuleFacts.holds _ _ (IsData _) |- _ => apply param_data in k; [|lia|exact ht]; destruct (not_dest b ht (or_introl k)) as (d & s & e & hd') end.
      rewrite (frame b rv _ _ ht hr k2 eq_refl eq_refl eq_refl eq_refl) by (cbn [in_args in_fee]; unfold G_mid; lia). unfold CtMemFacts.Exec. cbn [exec]. unfold i_jump. cbn [FrameIs with_gas f_stack]. rewrite e, hd'. apply agrees_fail.
    + match goal with k : CtRuleFacts.holds _ _ (OpIs _) |- _ => rewrite holds_op in k by apply (tst_pc b ht); destruct k as [k1 k2] end. match goal with k : CtRuleFacts.holds _ _ (Cmp Ge EGas _) |- _ => apply holds_gas_ge in k end. match goal with k : CtRuleFacts.holds _ _ (Cmp Ge ESize _) |- _ => apply holds_size_ge in k end.
      match goal with k : CtRuleFacts.holds _ _ (IsNotJumpdest _) |- _ => apply param_op in k; [|lia|exact ht]; destruct (not_dest b ht (or_intror k)) as (d & s & e & hd') end.
      rewrite (frame b rv _ _ ht hr k2 eq_refl eq_refl eq_refl eq_refl) by (cbn [in_args in_fee]; unfold G_mid; lia). unfold CtMemFacts.Exec. cbn [exec]. unfold i_jump. cbn [FrameIs with_gas f_stack]. rewrite e, hd'. apply agrees_fail.
  - entry_ok. arg st h1 hw d hd'. arg st h1 hw c hc'. conds hc. match goal with k : CtRuleFacts.holds _ _ (IsJumpdest _) |- _ => apply param_op in k; [|lia|exact (co_test _ _ _ co)]; apply (arg0 _ _ _ _ _ co) in k; cbn [compare] in k; rewrite <- is_dest_code in k by (unfold is_word in hd'; lia); rename k into kd end.
    match goal with k : CtRuleFacts.holds _ _ (Cmp Ne _ _) |- _ => apply param_ne in k; [|lia]; apply (arg1 _ _ _ _ _ _ co) in k; rename k into kc end.
    unfold i_jumpi. frames. cbv beta in kc; destruct (c =? 0); [discriminate kc|]. rewrite kd. states. rewrite (jump_target d _ hd' (code_ok _ _ _ co) kd). apply agrees_next. exact hrel.
  - assert (split2 : forall b, 2 <= zlen (ct_stack b) -> exists d c s, rev (ct_stack b) = d :: c :: s) by (intros b h; rewrite <- len_rev in h; destruct (rev (ct_stack b)) as [|d [|c s]]; try (cbn in h; lia); eauto).
    constructor; [|constructor; [|constructor; [|constructor]]]; intros b rv ht hr hc; cbn [r_conditions r_effect] in *; conds hc;
    (match goal with k : CtRuleFacts.holds _ _ (OpIs _) |- _ => rewrite holds_op in k by apply (tst_pc b ht); destruct k as [k1 k2] end); (match goal with k : CtRuleFacts.holds _ _ (Cmp Ge EGas _) |- _ => apply holds_gas_ge in k end); (match goal with k : CtRuleFacts.holds _ _ (Cmp Ge ESize _) |- _ => apply holds_size_ge in k end);
    rewrite (frame b rv _ _ ht hr k2 eq_refl eq_refl eq_refl eq_refl) by (cbn [in_args in_fee]; unfold G_high; lia); unfold CtMemFacts.Exec; cbn [exec]; unfold i_jumpi; cbn [FrameIs with_gas f_stack];
    destruct (split2 b ltac:(assumption)) as (d & c & s & e); rewrite e.
    + match goal with k : CtRuleFacts.holds _ _ (Cmp Eq _ _) |- _ => apply param_eq in k; [|lia]; destruct k as (v & e' & kc) end. rewrite e in e'. injection e' as <-. cbv beta in kc; rewrite kc. pose proof (tst_ok b ht) as ok.
      pose proof (ctk_mem_price b ok). pose proof (Gmem_nonneg (zlen (ct_mem b)) (zlen_nonneg _)). rewrite s64_small by (unfold G_high in *; cbn [in_fee] in *; lia).
      cbv zeta. assert (eg : set_gas (ct_gas b - 10) b = mk b (ct_pc b) (ct_gas b - 10) (ct_refund b) (d :: c :: s) (ct_mem b) (ct_last b) (ct_world b)) by (rewrite <- e, <- (mk_start b (ct_pc b) (ct_gas b - 10) (ctk_running b ok) (tst_ret b ht)); reflexivity). rewrite eg. states. frames.
      assert (hpc : ct_pc b < zlen (ct_code b)). { destruct (Z_lt_ge_dec (ct_pc b) (zlen (ct_code b))); [assumption|]. unfold code_at in k2. rewrite data_at_out in k2 by lia. discriminate. } pose proof (ctk_size b ok). pose proof (tst_pc b ht).
      unfold u16. rewrite Z.mod_small by lia. apply agrees_next. apply start_rel. exact ht.
    + match goal with k : CtRuleFacts.holds _ _ (Cmp Ne _ _) |- _ => apply param_ne in k; [|lia]; destruct k as (v & e' & kc) end. rewrite e in e'. injection e' as <-. cbv beta in kc; destruct (c =? 0); [discriminate kc|].
      match goal with k : CtRuleFacts.holds _ _ (IsData _) |- _ => apply param_data in k; [|lia|exact ht]; destruct (not_dest b ht (or_introl k)) as (d' & s' & e2 & hd') end. rewrite e in e2. injection e2 as <- <-. rewrite hd'. apply agrees_fail.
    + match goal with k : CtRuleFacts.holds _ _ (Cmp Ne p1 _) |- _ => apply param_ne in k; [|lia]; destruct k as (v & e' & kc) end. rewrite e in e'. injection e' as <-. cbv beta in kc; destruct (c =? 0); [discriminate kc|].
      match goal with k : CtRuleFacts.holds _ _ (IsNotJumpdest _) |- _ => apply param_op in k; [|lia|exact ht]; destruct (not_dest b ht (or_intror k)) as (d' & s' & e2 & hd') end. rewrite e in e2. injection e2 as <- <-. rewrite hd'. apply agrees_fail.
Qed.
End Sound.
