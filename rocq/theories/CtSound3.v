(** The rules of the conformance tests describe the EVM: MCOPY, logs, stack, jumps, storage and accounts. *)
From Verif Require Import Base Host Uint256 SpecEvm SpecVm ArithFacts MemFacts JumpFacts GoAdapter GoStorage LfvmCode Lfvm LfvmSim LfvmOps SpecLfvm Ct SpecCt PropFacts2 CtRules SpecRules CtRuleFacts CtMemFacts CtSound CtSound2 OpFacts2 OpFacts4.
From Coq Require Import Lia ZArith List Bool.
Import ListNotations.
Open Scope Z_scope.

Section Sound.
Variable tx : tx_context.
Variable keccak hash : list Z -> Z.
Hypothesis Htx : tx_ok tx.
Notation H := (go_host (ct_rc tx) tx).
Notation call := (answers ct_Call).
Notation msg_of b := (message_of (ToVmParameters hash b)).
Notation Step := (Step tx keccak hash).
Notation Exec := (Exec tx keccak hash).
Notation rule_ok := (rule_ok tx keccak hash).
Notation holds := (holds tx).

Ltac since_entry := eapply since_ok; [reflexivity|discriminate|num|reflexivity|reflexivity|reflexivity|num| |opened].
Ltac revs := let h := fresh "h" in let hin := fresh in intros ? ? hin h; apply rev_in in hin; cbn [i_conditions] in h; rewrite !Forall_cons_iff in h; decompose [and] h;
  repeat match goal with k : CtRuleFacts.holds _ _ (RevisionBounds _ _) |- _ => apply holds_rev in k | k : CtRuleFacts.holds _ _ (IsRevision _) |- _ => apply holds_rev in k | k : CtRuleFacts.holds _ _ (ReadOnly _) |- _ => apply holds_ro in k end; cbn [from_rev]; split; [lia|first [discriminate|intros _; assumption]].
Lemma mcopy_ok : Forall rule_ok mcopyRules.
Proof.
  unfold mcopyRules. each; [|constructor; [|constructor]; eapply too_early; [reflexivity|cbn; lia]].
  since_entry; [revs|]. arg st h1 hw dst hdd. arg st h1 hw src hs. arg st h1 hw n hn. unfold i_mcopy. cbn [f_stack]. states.
  destruct (expansion _ _ _ src n (ct_gas b - 3) hrel hs hn ltac:(lia) ltac:(lia)) as (c & o & z & -> & hz & ho & hx).
  destruct (expansion _ _ _ dst n (ct_gas b - 3) hrel hdd hn ltac:(lia) ltac:(lia)) as (c' & o' & z' & -> & hz' & ho' & hx').
  rewrite word_costs by lia. cbn [f_active]. set (a := zlen (ct_mem b)) in *. unfold is_word in hn, hs, hdd.
  pose proof (words_nonneg z ltac:(lia)) as hwz. pose proof (words_nonneg n ltac:(lia)) as hwn. assert (hwz2 : words z < 2 ^ 60) by (unfold words; apply Z.div_lt_upper_bound; lia).
  pose proof (expand_fee a dst n ltac:(lia)) as hf1. pose proof (expand_fee a src n ltac:(lia)) as hf2.
  assert (eq : Gmem (expand (expand a src n) dst n) - Gmem a = Z.max (Gmem (expand a src n) - Gmem a) (Gmem (expand a dst n) - Gmem a)).
  { unfold expand in *. destruct (Z.eqb_spec n 0); [lia|]. set (x := 32 * words (src + n)) in *. set (y := 32 * words (dst + n)) in *.
    assert (hxy : 0 <= x /\ 0 <= y) by (unfold x, y; pose proof (words_nonneg (src + n)); pose proof (words_nonneg (dst + n)); lia).
    destruct (Z.max_spec (Z.max a x) y) as [[k1 ->]|[k1 ->]].
    - pose proof (Gmem_mono (Z.max a x) y ltac:(lia)). replace (Z.max a y) with y by lia. lia.
    - pose proof (Gmem_mono (Z.max a y) (Z.max a x) ltac:(lia)). lia. }
  rewrite eq.
  apply paysum_ok; [reflexivity|lia| |lia|lia|lia| |].
  - destruct hx as [(hx & hx1 & _)|[hx hx1]]; destruct hx' as [(hx' & hx1' & _)|[hx' hx1']]; [left|right|right|right]; unfold maxInt64 in *; lia.
  - intros hle. destruct hx as [(_ & _ & -> & _)|[hx _]]; [reflexivity|unfold maxInt64 in *; lia].
  - intros e1 e2 e3. destruct hx as [(hx & hx1 & hx2 & hx3 & hx4)|[hx _]]; [|unfold maxInt64 in *; lia]. destruct hx' as [(hx' & hx1' & hx2' & hx3' & hx4')|[hx' _]]; [|unfold maxInt64 in *; lia]. subst z.
    match goal with |- context [mk b ?p ?gg ?rf ?s ?m ?l ?w] => assert (hr : exists m', Read o n (mk b p gg rf s m l w) = Ok (read_bytes (data_at (ct_mem b)) src n, mk b p gg rf s m' l w) /\ mem_rel m' (data_at (ct_mem b)) (expand a src n)) end.
    { destruct (Z.eq_dec n 0) as [->|hz0].
      - exists (ct_mem b). split; [reflexivity|]. exact hrel.
      - destruct (hx4 hz0) as (-> & hx5 & hx6). exists (Grow src n (ct_mem b)). split; [apply read_ok with (a := a); assumption || lia|apply grow_ok; assumption || lia]. }
    destruct hr as (m1 & -> & hm1). cbn [rbind]. pose proof (expand_small a src n hsmall ltac:(intros k; apply (hx4 k))) as hes.
    assert (hzl : zlen (read_bytes (data_at (ct_mem b)) src n) = n) by (rewrite read_bytes_zlen; lia).
    assert (hea : 0 <= expand a src n < 2 ^ 37) by (split; [lia|]; apply size_small; lia).
    match goal with |- context [mk b ?p ?gg ?rf ?s m1 ?l ?w] => destruct (write_to b p gg rf s m1 l w (expand a src n) (data_at (ct_mem b)) dst o' (read_bytes (data_at (ct_mem b)) src n) hm1 hea) as (m' & -> & hm') end.
    + apply read_bytes_byte. intros i _. apply data_at_byte. apply (ctk_mem b (tst_ok b (co_test _ _ _ co))).
    + rewrite hzl. exact hx4'.
    + rewrite hzl in hm'. frames. apply agrees_next. exact hm'.
Qed.

(** ** Logs *)
Lemma refused op i : SpecEvm.instruction op = Some i -> in_stateful i = true -> forall cs, In (OpIs op) cs -> In (ReadOnly true) cs -> rule_ok (mkRule cs FailEffect).
Proof.
  intros hi hs cs h1 h2 b rv ht hr hc. cbn [r_conditions r_effect] in *. rewrite Forall_forall in hc. pose proof (hc _ h1) as c1. pose proof (hc _ h2) as c2. apply holds_ro in c2. rewrite holds_op in c1 by apply (tst_pc b ht).
  destruct (step_fails tx keccak hash b rv _ _ ht (proj2 c1) hi) as (e & f & ->); [|apply agrees_fail]. right. left. rewrite hs, c2. reflexivity.
Qed.
Lemma upto_in lo n k : In k (upto lo n) -> lo <= k < lo + Z.of_nat n.
Proof. unfold upto. rewrite in_map_iff. intros (i & <- & hi). apply in_seq in hi. lia. Qed.
Lemma log_exec' n m rv code (f : frame ctw) : 0 <= n <= 4 -> exec H call keccak m rv code (is_dest code) (0xA0 + n) f = i_log H m n f.
Proof. intros Hn. apply (log_case n (fun n => exec H call keccak m rv code (is_dest code) (0xA0 + n) f = i_log H m n f) Hn); reflexivity. Qed.
Lemma log_ok n : 0 <= n <= 4 -> Forall rule_ok (logOp n).
Proof.
  intros h4. unfold logOp. each; [|constructor; [|constructor]; eapply (refused (0xA0 + n)); [apply log_instr; exact h4|reflexivity| |]; cbn; tauto].
  eapply since_ok; [exact (log_instr n h4)|cbn [i_op]; lia|lia|cbn [i_gas]; lia|cbn [i_pops]; lia|reflexivity|lia|revs|].
  intros b rv st co hc hop h1 h2 hg. cbn [i_op i_effect i_conditions] in *. unfold CtMemFacts.Exec. rewrite log_exec' by exact h4. unfold Paid, paid. pose proof (co_words _ _ _ co) as hw. pose proof (co_gas_small _ _ _ co) as hgs. pose proof (co_gas _ _ _ co) as hg0. pose proof (co_price _ _ _ co) as hprice. pose proof (co_rel _ _ _ co) as hrel. pose proof (mem_small _ _ _ _ hrel hg0 hprice) as hsmall.
  destruct st as [|off [|z st]]; try (unfold zlen in h1; cbn [length] in h1; lia). rewrite !Forall_cons_iff in hw. destruct hw as (ho & hn & hw). rewrite !zlen_cons in h1. unfold i_log. cbn [f_stack]. states. rewrite mk_pops by (unfold zlen in h1; lia). cbn [rbind]. states.
  destruct (expansion _ _ _ off z (ct_gas b - 375 * (n + 1)) hrel ho hn ltac:(lia) ltac:(lia)) as (c & o & z' & -> & hz & ho' & hx).
  pose proof (expand_fee (zlen (ct_mem b)) off z ltac:(lia)) as hf. unfold is_word in hn.
  apply pay2_ok; [reflexivity|lia|unfold mem_fee; cbn [f_active]; unfold maxInt64 in *; lia|unfold mem_fee; cbn [f_active]; lia|lia| |].
  - intros e. destruct hx as [(hx & hx1 & hx2 & hx3 & hx4)|[hx hx']]; [rewrite hx2, u64_small, s64_small by lia; reflexivity|unfold maxInt64 in *; lia].
  - unfold mem_fee. cbn [f_active]. intros e e1 e2. destruct hx as [(hx & hx1 & hx2 & hx3 & hx4)|[hx hx']].
    2:{ unfold maxInt64 in *. lia. }
    subst z'. match goal with |- context [mk b ?p ?gg ?rf ?s ?m ?l ?w] => assert (hr : Read o z (mk b p gg rf s m l w) = Ok (read_bytes (data_at (ct_mem b)) off z, mk b p gg rf s (Grow off z m) l w)) end.
    { destruct (Z.eq_dec z 0) as [->|hz0]; [reflexivity|]. destruct (hx4 hz0) as (-> & hx5 & hx6). apply read_ok with (a := zlen (ct_mem b)); assumption || lia. }
    rewrite hr. states. frames. unfold touch. frames. cbn [h_emit_log go_host ct_rc rc_emit_log]. apply agrees_next. apply grow_ok; try assumption; try lia.
Qed.
Lemma logs_ok : Forall rule_ok (flat_map logOp (upto 0 5)).
Proof. apply Forall_flat_map, Forall_forall. intros n hn. apply upto_in in hn. apply log_ok. lia. Qed.

(** ** Stack *)
Ltac all_ns := let k := fresh in let HI := fresh in intros k HI; cbn in HI; repeat (destruct HI as [<-|HI]; [reflexivity|]); contradiction.
Lemma push_exec' n m rv code vd (f : frame ctw) : 1 <= n <= 32 -> exec H call keccak m rv code vd (0x5F + n) f = i_push code n f.
Proof. intros Hn. apply (push_case n (fun n => exec H call keccak m rv code vd (0x5F + n) f = i_push code n f) Hn). all_ns. Qed.
Lemma dup_exec' n m rv code vd (f : frame ctw) : 1 <= n <= 16 -> exec H call keccak m rv code vd (0x7F + n) f = i_dup n f.
Proof. intros Hn. apply (low_case n (fun n => exec H call keccak m rv code vd (0x7F + n) f = i_dup n f) Hn). all_ns. Qed.
Lemma swap_exec' n m rv code vd (f : frame ctw) : 1 <= n <= 16 -> exec H call keccak m rv code vd (0x8F + n) f = i_swap n f.
Proof. intros Hn. apply (low_case n (fun n => exec H call keccak m rv code vd (0x8F + n) f = i_swap n f) Hn). all_ns. Qed.
Lemma push_ok n : 1 <= n <= 32 -> Forall rule_ok (pushOp n).
Proof.
  intros hn. unfold pushOp. replace (0x60 + n - 1) with (0x5F + n) by lia. eapply plain_ok; [exact (push_instr n hn)|cbn [i_op]; lia|lia|reflexivity|reflexivity|reflexivity|lia|].
  intros b rv st co hc hop h1 h2 hg. cbn [i_op i_effect i_conditions] in *. unfold CtMemFacts.Exec. rewrite push_exec' by exact hn. unfold Paid, paid. states. pose proof (co_pc _ _ _ co) as hpc.
  assert (hl : push_len (code_at (ct_code b) (ct_pc b)) = n) by (rewrite hop; unfold push_len; assert (e : (0x60 <=? 0x5F + n) && (0x5F + n <=? 0x7F) = true) by lia; rewrite e; lia).
  rewrite (get_data_eq (ct_code b) (ct_pc b) ltac:(lia) (co_code _ _ _ co)) by (rewrite ?hl; lia). cbn [rbind]. rewrite Z2Nat.id by lia. states. rewrite setBytes_be. unfold i_push. frames. unfold u16. rewrite Z.mod_small by lia. apply agrees_next. apply co.
Qed.
Lemma dup_ok n : 1 <= n <= 16 -> Forall rule_ok (dupOp n).
Proof.
  intros hn. unfold dupOp. replace (0x80 + n - 1) with (0x7F + n) by lia. eapply plain_ok; [exact (dup_instr n hn)|cbn [i_op]; lia|lia|reflexivity|reflexivity|reflexivity|lia|].
  intros b rv st co hc hop h1 h2 hg. cbn [i_op i_effect i_conditions] in *. unfold CtMemFacts.Exec. rewrite dup_exec' by exact hn. unfold Paid, paid. rewrite mk_get by lia. states. unfold i_dup. cbn [f_stack]. rewrite (nth_error_nth' st 0) by (unfold zlen in *; lia). frames. apply agrees_next. apply co.
Qed.
Lemma swap_ok n : 1 <= n <= 16 -> Forall rule_ok (swapOp n).
Proof.
  intros hn. unfold swapOp. replace (0x90 + n - 1) with (0x8F + n) by lia. eapply plain_ok; [exact (swap_instr n hn)|cbn [i_op]; lia|lia|reflexivity|reflexivity|reflexivity|lia|].
  intros b rv st co hc hop h1 h2 hg. cbn [i_op i_effect i_conditions] in *. unfold CtMemFacts.Exec. rewrite swap_exec' by exact hn. unfold Paid, paid. rewrite !mk_get by lia. cbn [rbind]. rewrite mk_set by lia. cbn [rbind].
  destruct st as [|a st]; [unfold zlen in h1; cbn [length] in h1; lia|]. rewrite zlen_cons in h1. unfold i_swap. cbn [f_stack]. rewrite (nth_error_nth' st 0) by (unfold zlen in *; lia).
  rewrite mk_set by (unfold zlen in *; rewrite list_upd_length; cbn [length]; lia). change (Z.to_nat 0) with 0%nat. cbn [list_upd nth]. frames. replace (Z.to_nat n) with (S (Z.to_nat (n - 1))) by lia. cbn [nth]. change (list_upd ?l 0%nat ?v) with (v :: tl l).
  rewrite upd_split by (cbn [length]; unfold zlen in *; lia). cbn [firstn skipn app tl]. replace (S (Z.to_nat (n - 1))) with (Z.to_nat n) by lia. apply agrees_next. apply co.
Qed.
Lemma stack_ok : Forall rule_ok stackRules.
Proof.
  unfold stackRules. each.
  - since_entry; [revs|]. states. frames. apply agrees_next. exact hrel.
  - constructor; [|constructor]. eapply too_early; [reflexivity|cbn; lia].
  - apply Forall_flat_map, Forall_forall. intros n hn. apply upto_in in hn. apply push_ok. lia.
  - entry_ok. arg st h1 hw a ha. states. frames. apply agrees_next. exact hrel.
  - apply Forall_flat_map, Forall_forall. intros n hn. apply upto_in in hn. apply dup_ok. lia.
  - apply Forall_flat_map, Forall_forall. intros n hn. apply upto_in in hn. apply swap_ok. lia.
Qed.
End Sound.
