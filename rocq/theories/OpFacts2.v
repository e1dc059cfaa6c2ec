(** Stack, memory and copy instructions, as observed through StepN. *)
From Verif Require Import Base Host SpecEvm SpecVm MemFacts JumpFacts ArithFacts SpecFacts Vm VmFacts SpecStep StepFacts Client ClientFacts SpecOps OpFacts.
From Coq Require Import Lia ZArith List Bool.
Import ListNotations.

Ltac flds := cbn [with_pc with_stack with_gas with_mem with_active with_ret with_world add_refund touch frame_in
  f_pc f_gas f_refund f_stack f_mem f_active f_ret f_world rev in_fee in_args in_results] in *.
Ltac shape Hs := cbv zeta; cbn [SpecEvm.exec].

Section Ops.
Context {W : Type}.
Variable g : setting W.
Hypothesis Hg : setting_ok g.
Notation H := (g_host g).
Notation keccak := (g_keccak g).

(** ** Stack *)
Theorem op_pop v w rv code m si rest x : at_op g v code m si 0x50 -> si_stack si = rest ++ [x] -> 2 <= msg_gas m ->
  steps_to g v w rv code m si (running rv (si_pc si + 1) (msg_gas m - 2) (si_refunds si) rest (whole_words (si_mem si)) (si_ret si)) w.
Proof.
  intros A Hs Hf. pose proof (stack_room code m si rest [x] 1 (at_args _ _ _ _ _ _ A) Hs eq_refl) as Hh.
  pose proof (only_stack g Hg v w rv code m si 0x50 _ [x] [] rest A eq_refl (istanbul rv) eq_refl Hs eq_refl eq_refl ltac:(cbn [in_results]; lia) Hf) as X.
  cbn [rev in_fee] in X. rewrite app_nil_r in X. apply X. intros f Es _ _ _ _ _. cbn [SpecEvm.exec]. rewrite Es. reflexivity.
Qed.

Lemma push_case n (P : Z -> Prop) : 1 <= n <= 32 -> (forall k, In k (map Z.of_nat (seq 1 32)) -> P k) -> P n.
Proof. intros Hn Hall. apply Hall. apply in_map_iff. exists (Z.to_nat n). split; [lia|]. apply in_seq. lia. Qed.
Lemma low_case n (P : Z -> Prop) : 1 <= n <= 16 -> (forall k, In k (map Z.of_nat (seq 1 16)) -> P k) -> P n.
Proof. intros Hn Hall. apply Hall. apply in_map_iff. exists (Z.to_nat n). split; [lia|]. apply in_seq. lia. Qed.
Ltac each := let k := fresh in let HI := fresh in intros k HI; cbn in HI; repeat (destruct HI as [<-|HI]; [reflexivity|]); contradiction.

Lemma push_instr n : 1 <= n <= 32 -> instruction (0x5F + n) = Some (mkInstr 0 1 3 Istanbul false).
Proof. intros Hn. revert n Hn. intros n Hn. apply (push_case n (fun n => instruction (0x5F + n) = Some (mkInstr 0 1 3 Istanbul false)) Hn). each. Qed.
Lemma push_exec n call m rv code vd (f : frame W) : 1 <= n <= 32 -> SpecEvm.exec H call keccak m rv code vd (0x5F + n) f = i_push code n f.
Proof. intros Hn. apply (push_case n (fun n => SpecEvm.exec H call keccak m rv code vd (0x5F + n) f = i_push code n f) Hn). each. Qed.
Lemma dup_instr n : 1 <= n <= 16 -> instruction (0x7F + n) = Some (mkInstr n (n + 1) 3 Istanbul false).
Proof. intros Hn. apply (low_case n (fun n => instruction (0x7F + n) = Some (mkInstr n (n + 1) 3 Istanbul false)) Hn). each. Qed.
Lemma dup_exec n call m rv code vd (f : frame W) : 1 <= n <= 16 -> SpecEvm.exec H call keccak m rv code vd (0x7F + n) f = i_dup n f.
Proof. intros Hn. apply (low_case n (fun n => SpecEvm.exec H call keccak m rv code vd (0x7F + n) f = i_dup n f) Hn). each. Qed.
Lemma swap_instr n : 1 <= n <= 16 -> instruction (0x8F + n) = Some (mkInstr (n + 1) (n + 1) 3 Istanbul false).
Proof. intros Hn. apply (low_case n (fun n => instruction (0x8F + n) = Some (mkInstr (n + 1) (n + 1) 3 Istanbul false)) Hn). each. Qed.
Lemma swap_exec n call m rv code vd (f : frame W) : 1 <= n <= 16 -> SpecEvm.exec H call keccak m rv code vd (0x8F + n) f = i_swap n f.
Proof. intros Hn. apply (low_case n (fun n => SpecEvm.exec H call keccak m rv code vd (0x8F + n) f = i_swap n f) Hn). each. Qed.

Theorem op_push v w rv code m si n : 1 <= n <= 32 -> at_op g v code m si (0x5F + n) -> zlen (si_stack si) < 1024 -> 3 <= msg_gas m ->
  steps_to g v w rv code m si (running rv (si_pc si + 1 + n) (msg_gas m - 3) (si_refunds si)
    (si_stack si ++ [be (data_bytes code (si_pc si + 1) n)]) (whole_words (si_mem si)) (si_ret si)) w.
Proof.
  intros Hn A Hh Hf. pose proof (zlen_nonneg (si_stack si)).
  destruct (next_result g Hg v w rv code m si (0x5F + n) _
    (with_pc (si_pc si + 1 + n) (with_stack (be (data_bytes code (si_pc si + 1) n) :: rev (si_stack si)) (with_gas (msg_gas m - 3) (frame_in m w si))))
    A (push_instr n Hn) (istanbul rv) eq_refl ltac:(cbn [in_args]; lia) ltac:(cbn [in_args in_results]; lia) ltac:(cbn [in_fee]; lia)) as [R _].
  - rewrite push_exec by exact Hn. reflexivity.
  - flds. rewrite rev_involutive, <- whole_words_eq in R. exact R.
Qed.
Theorem op_dup v w rv code m si n rest x above : 1 <= n <= 16 -> at_op g v code m si (0x7F + n) ->
  si_stack si = rest ++ x :: above -> zlen above = n - 1 -> zlen (si_stack si) < 1024 -> 3 <= msg_gas m ->
  steps_to g v w rv code m si (running rv (si_pc si + 1) (msg_gas m - 3) (si_refunds si) (si_stack si ++ [x]) (whole_words (si_mem si)) (si_ret si)) w.
Proof.
  intros Hn A Hs Ha Hh Hf. pose proof (zlen_nonneg rest).
  assert (Hz : zlen (si_stack si) = zlen rest + n) by (rewrite Hs, zlen_app, zlen_cons; lia).
  destruct (next_result g Hg v w rv code m si (0x7F + n) _
    (with_pc (si_pc si + 1) (with_stack (x :: rev (si_stack si)) (with_gas (msg_gas m - 3) (frame_in m w si))))
    A (dup_instr n Hn) (istanbul rv) eq_refl ltac:(cbn [in_args]; lia) ltac:(cbn [in_args in_results]; lia) ltac:(cbn [in_fee]; lia)) as [R _].
  - rewrite dup_exec by exact Hn. unfold i_dup. cbn [with_gas frame_in f_stack].
    assert (E : nth_error (rev (si_stack si)) (Z.to_nat (n - 1)) = Some x).
    { rewrite Hs, rev_app_distr. cbn [rev]. rewrite <- app_assoc. rewrite nth_error_app2 by (rewrite rev_length; unfold zlen in *; lia).
      replace (Z.to_nat (n - 1) - length (rev above))%nat with 0%nat by (rewrite rev_length; unfold zlen in *; lia). reflexivity. }
    rewrite E. reflexivity.
  - flds. rewrite rev_involutive, <- whole_words_eq in R. exact R.
Qed.
Theorem op_swap v w rv code m si n rest x mid y : 1 <= n <= 16 -> at_op g v code m si (0x8F + n) ->
  si_stack si = rest ++ x :: mid ++ [y] -> zlen mid = n - 1 -> 3 <= msg_gas m ->
  steps_to g v w rv code m si (running rv (si_pc si + 1) (msg_gas m - 3) (si_refunds si) (rest ++ y :: mid ++ [x]) (whole_words (si_mem si)) (si_ret si)) w.
Proof.
  intros Hn A Hs Ha Hf. pose proof (zlen_nonneg rest). pose proof (sk_height _ _ _ (at_args _ _ _ _ _ _ A)) as Hh.
  assert (Hz : zlen (si_stack si) = zlen rest + n + 1) by (rewrite Hs, zlen_app, zlen_cons, zlen_app, zlen_cons, zlen_nil; lia).
  assert (Er : rev (si_stack si) = y :: rev mid ++ x :: rev rest).
  { rewrite Hs, rev_app_distr. cbn [rev]. rewrite rev_app_distr. cbn [rev app]. rewrite <- !app_assoc. reflexivity. }
  assert (Lm : length (rev mid) = Z.to_nat (n - 1)) by (rewrite rev_length; unfold zlen in *; lia).
  destruct (next_result g Hg v w rv code m si (0x8F + n) _
    (with_pc (si_pc si + 1) (with_stack (x :: rev mid ++ y :: rev rest) (with_gas (msg_gas m - 3) (frame_in m w si))))
    A (swap_instr n Hn) (istanbul rv) eq_refl ltac:(cbn [in_args]; lia) ltac:(cbn [in_args in_results]; lia) ltac:(cbn [in_fee]; lia)) as [R _].
  - rewrite swap_exec by exact Hn. unfold i_swap. cbn [with_gas frame_in f_stack]. rewrite Er.
    rewrite nth_error_app2 by lia. rewrite Lm, Nat.sub_diag. cbn [nth_error].
    rewrite firstn_app, Lm, Nat.sub_diag, firstn_all2 by lia. cbn [firstn]. rewrite app_nil_r.
    replace (Z.to_nat n) with (length (rev mid ++ [x])) by (rewrite app_length, Lm; cbn [length]; lia).
    change (rev mid ++ x :: rev rest) with (rev mid ++ [x] ++ rev rest). rewrite (app_assoc (rev mid) [x] (rev rest)), skipn_app, skipn_all, Nat.sub_diag. reflexivity.
  - flds. rewrite <- whole_words_eq in R. rewrite rev_app_distr in R. cbn [rev] in R. rewrite !rev_involutive in R. rewrite <- !app_assoc in R. exact R.
Qed.

(** PC, MSIZE, GAS, RETURNDATASIZE *)
Theorem op_state v w rv code m si op x : In (op, x) [(0x58, si_pc si); (0x59, zlen (whole_words (si_mem si))); (0x5A, msg_gas m - 2); (0x3D, zlen (si_ret si))] ->
  at_op g v code m si op -> zlen (si_stack si) < 1024 -> 2 <= msg_gas m ->
  steps_to g v w rv code m si (running rv (si_pc si + 1) (msg_gas m - 2) (si_refunds si) (si_stack si ++ [x]) (whole_words (si_mem si)) (si_ret si)) w.
Proof.
  intros HIn A Hh Hf. cbn [In] in HIn.
  assert (El : zlen (whole_words (si_mem si)) = 32 * words (zlen (si_mem si))).
  { rewrite whole_words_eq, read_bytes_zlen. pose proof (words_nonneg (zlen (si_mem si)) (zlen_nonneg _)). lia. }
  rewrite El in HIn.
  repeat (destruct HIn as [HIn|HIn]; [injection HIn as <- <-|]); [..|contradiction];
  (eapply (only_stack g Hg v w rv code m si _ _ [] [_] (si_stack si) A eq_refl (istanbul rv) eq_refl (eq_sym (app_nil_r _)) eq_refl eq_refl); cbn [in_results in_fee];
    [lia|assumption|]); intros f Es Ew Er Ep Ea Egas;
  cbn [SpecEvm.exec]; unfold push; rewrite Es, ?Er, ?Ep, ?Ea, ?Egas; reflexivity.
Qed.

(** ** Memory *)
Lemma act_nonneg (mem : list Z) : 0 <= 32 * words (zlen mem).
Proof. pose proof (words_nonneg (zlen mem) (zlen_nonneg mem)). lia. Qed.

Theorem op_mload v w rv code m si rest off : at_op g v code m si 0x51 -> si_stack si = rest ++ [off] ->
  let cost := 3 + growth_cost (si_mem si) off 32 in
  (cost <= msg_gas m -> exists mem',
     steps_to g v w rv code m si (running rv (si_pc si + 1) (msg_gas m - cost) (si_refunds si) (rest ++ [be (data_bytes (si_mem si) off 32)]) mem' (si_ret si)) w /\
     overwritten (si_mem si) mem' (grown (si_mem si) off 32) 0 0 (fun _ => 0)) /\
  (msg_gas m < cost -> out_of_gas g v w rv code m si).
Proof.
  intros A Hs cost. pose proof (stack_room code m si rest [off] 1 (at_args _ _ _ _ _ _ A) Hs eq_refl) as Hh.
  destruct (dyn_op g Hg v w rv code m si 0x51 _ [off] rest (growth_cost (si_mem si) off 32)
    (fun f => yield (be (read_bytes (f_mem f) off 32) :: rev rest) (touch off 32 f)) _
    A eq_refl (istanbul rv) eq_refl Hs eq_refl ltac:(cbn [in_results]; lia) (growth_nonneg _ _ _)
    ltac:(shape Hs; unfold i_mload; cbn [with_gas frame_in f_stack]; rewrite Hs, rev_app_distr; cbn [rev app]; rewrite <- (fee_eq m w si (msg_gas m - 3)); reflexivity)
    eq_refl) as [X Y].
  split; [|exact Y]. intros Hf. destruct (X Hf) as [R S]. eexists. split.
  - flds. rewrite rev_involutive in R. rewrite data_bytes_read. exact R.
  - refine (show_mem code _ (si_mem si) 0 0 (fun _ => 0) S _). intros i Hi. cbn [yield next with_pc with_stack f_mem]. flds.
    destruct (Z.leb_spec 0 i), (Z.ltb_spec i (0 + 0)); try lia; reflexivity.
Qed.
Theorem op_mstore v w rv code m si rest off x : at_op g v code m si 0x52 -> si_stack si = rest ++ [x; off] ->
  let cost := 3 + growth_cost (si_mem si) off 32 in
  (cost <= msg_gas m -> exists mem',
     steps_to g v w rv code m si (running rv (si_pc si + 1) (msg_gas m - cost) (si_refunds si) rest mem' (si_ret si)) w /\
     overwritten (si_mem si) mem' (grown (si_mem si) off 32) off 32 (fun i => (x / 256 ^ (31 - i)) mod 256)) /\
  (msg_gas m < cost -> out_of_gas g v w rv code m si).
Proof.
  intros A Hs cost. pose proof (stack_room code m si rest [x; off] 2 (at_args _ _ _ _ _ _ A) Hs eq_refl) as Hh.
  destruct (dyn_op g Hg v w rv code m si 0x52 _ [off; x] rest (growth_cost (si_mem si) off 32)
    (fun f => yield (rev rest) (with_mem (write_bytes (f_mem f) off (be_bytes 32 x)) (touch off 32 f))) _
    A eq_refl (istanbul rv) eq_refl Hs eq_refl ltac:(cbn [in_results]; lia) (growth_nonneg _ _ _)
    ltac:(shape Hs; unfold i_mstore; cbn [with_gas frame_in f_stack]; rewrite Hs, rev_app_distr; cbn [rev app]; rewrite <- (fee_eq m w si (msg_gas m - 3)); reflexivity)
    eq_refl) as [X Y].
  split; [|exact Y]. intros Hf. destruct (X Hf) as [R S]. eexists. split.
  - flds. rewrite rev_involutive in R. exact R.
  - refine (show_mem code _ (si_mem si) off 32 (fun i => (x / 256 ^ (31 - i)) mod 256) S _). intros i Hi. flds.
    rewrite write_eq. change (zlen (be_bytes 32 x)) with 32. destruct (Z.leb_spec off i), (Z.ltb_spec i (off + 32)); cbn [andb]; try reflexivity.
    rewrite data_at_in by (change (zlen (be_bytes 32 x)) with 32; lia). unfold be_bytes.
    set (q := fun j : nat => (x / 256 ^ Z.of_nat (32 - 1 - j)) mod 256).
    rewrite nth_indep with (d' := q 0%nat) by (rewrite map_length, seq_length; lia).
    rewrite map_nth, seq_nth by lia. unfold q. do 3 f_equal. lia.
Qed.
Theorem op_mstore8 v w rv code m si rest off x : at_op g v code m si 0x53 -> si_stack si = rest ++ [x; off] ->
  let cost := 3 + growth_cost (si_mem si) off 1 in
  (cost <= msg_gas m -> exists mem',
     steps_to g v w rv code m si (running rv (si_pc si + 1) (msg_gas m - cost) (si_refunds si) rest mem' (si_ret si)) w /\
     overwritten (si_mem si) mem' (grown (si_mem si) off 1) off 1 (fun _ => x mod 256)) /\
  (msg_gas m < cost -> out_of_gas g v w rv code m si).
Proof.
  intros A Hs cost. pose proof (stack_room code m si rest [x; off] 2 (at_args _ _ _ _ _ _ A) Hs eq_refl) as Hh.
  destruct (dyn_op g Hg v w rv code m si 0x53 _ [off; x] rest (growth_cost (si_mem si) off 1)
    (fun f => yield (rev rest) (with_mem (write_bytes (f_mem f) off [x mod 256]) (touch off 1 f))) _
    A eq_refl (istanbul rv) eq_refl Hs eq_refl ltac:(cbn [in_results]; lia) (growth_nonneg _ _ _)
    ltac:(shape Hs; unfold i_mstore8; cbn [with_gas frame_in f_stack]; rewrite Hs, rev_app_distr; cbn [rev app]; rewrite <- (fee_eq m w si (msg_gas m - 3)); reflexivity)
    eq_refl) as [X Y].
  split; [|exact Y]. intros Hf. destruct (X Hf) as [R S]. eexists. split.
  - flds. rewrite rev_involutive in R. exact R.
  - refine (show_mem code _ (si_mem si) off 1 (fun i => x mod 256) S _). intros i Hi. flds.
    rewrite write_eq. change (zlen [x mod 256]) with 1. destruct (Z.leb_spec off i), (Z.ltb_spec i (off + 1)); cbn [andb]; try reflexivity.
    replace (i - off) with 0 by lia. reflexivity.
Qed.
Theorem op_mcopy v w rv code m si rest dst src n : at_op g v code m si 0x5E -> rev_ge rv Cancun = true -> si_stack si = rest ++ [n; src; dst] ->
  let size := expand (grown (si_mem si) src n) dst n in
  let cost := 3 + 3 * words n + (Gmem size - Gmem (zlen (si_mem si))) in
  (cost <= msg_gas m -> exists mem',
     steps_to g v w rv code m si (running rv (si_pc si + 1) (msg_gas m - cost) (si_refunds si) rest mem' (si_ret si)) w /\
     overwritten (si_mem si) mem' size dst n (fun i => data_at (si_mem si) (src + i))) /\
  (msg_gas m < cost -> out_of_gas g v w rv code m si).
Proof.
  intros A Hrv Hs size cost. pose proof (stack_room code m si rest [n; src; dst] 3 (at_args _ _ _ _ _ _ A) Hs eq_refl) as Hh.
  assert (Hw : 0 <= n).
  { pose proof (sk_words _ _ _ (at_args _ _ _ _ _ _ A)) as F. rewrite Hs in F. apply Forall_app in F. destruct F as [_ F]. inversion F as [|? ? F1 F2]; subst. apply F1. }
  assert (Hc : 0 <= 3 * words n + (Gmem size - Gmem (32 * words (zlen (si_mem si))))).
  { pose proof (words_nonneg n Hw). pose proof (expand_ge (32 * words (zlen (si_mem si))) src n). pose proof (expand_ge (grown (si_mem si) src n) dst n).
    pose proof (act_nonneg (si_mem si)). unfold grown in *. pose proof (Gmem_mono (32 * words (zlen (si_mem si))) size ltac:(unfold size, grown; lia)). lia. }
  destruct (dyn_op g Hg v w rv code m si 0x5E _ [dst; src; n] rest (3 * words n + (Gmem size - Gmem (32 * words (zlen (si_mem si)))))
    (fun f => yield (rev rest) (with_mem (write_bytes (f_mem f) dst (read_bytes (f_mem f) src n)) (with_active size f))) _
    A eq_refl Hrv eq_refl Hs eq_refl ltac:(cbn [in_results]; lia) Hc
    ltac:(shape Hs; unfold i_mcopy; cbn [with_gas frame_in f_stack]; rewrite Hs, rev_app_distr; cbn [rev app]; reflexivity)
    eq_refl) as [X Y]. rewrite Gmem_words in X, Y. flds. unfold G_verylow in *. fold cost in X, Y.
  assert (Ec : 3 + (3 * words n + (Gmem size - Gmem (zlen (si_mem si)))) = cost) by (unfold cost; lia). rewrite Ec in *.
  split; [|exact Y]. intros Hf. destruct (X Hf) as [R S]. eexists. split.
  - flds. rewrite rev_involutive in R. exact R.
  - refine (show_mem code _ (si_mem si) dst n (fun i => data_at (si_mem si) (src + i)) S _). intros i Hi. flds.
    rewrite write_eq, read_bytes_zlen. rewrite Z.max_r by lia. destruct (Z.leb_spec dst i), (Z.ltb_spec i (dst + n)); cbn [andb]; try reflexivity.
    rewrite read_bytes_at by lia. reflexivity.
Qed.

(** ** Copies *)
Theorem op_calldataload v w rv code m si rest off : at_op g v code m si 0x35 -> si_stack si = rest ++ [off] -> 3 <= msg_gas m ->
  steps_to g v w rv code m si (running rv (si_pc si + 1) (msg_gas m - 3) (si_refunds si) (rest ++ [be (data_bytes (msg_input m) off 32)]) (whole_words (si_mem si)) (si_ret si)) w.
Proof.
  intros A Hs Hf. pose proof (stack_room code m si rest [off] 1 (at_args _ _ _ _ _ _ A) Hs eq_refl) as Hh.
  apply (only_stack g Hg v w rv code m si 0x35 _ [off] [be (data_bytes (msg_input m) off 32)] rest A eq_refl (istanbul rv) eq_refl Hs eq_refl eq_refl ltac:(cbn [in_results]; lia) Hf).
  intros f Es _ _ _ _ _. cbn [SpecEvm.exec]. unfold i_calldataload, un. rewrite Es. reflexivity.
Qed.

Lemma top3_nonneg v code m si op rest n b a : at_op g v code m si op -> si_stack si = rest ++ [n; b; a] -> 0 <= n /\ 0 <= b /\ 0 <= a.
Proof.
  intros A Hs. pose proof (sk_words _ _ _ (at_args _ _ _ _ _ _ A)) as F. rewrite Hs in F. apply Forall_app in F. destruct F as [_ F].
  inversion F as [|? ? F1 F2]; subst. inversion F2 as [|? ? F3 F4]; subst. inversion F4 as [|? ? F5 F6]; subst.
  unfold is_word in *. lia.
Qed.

(** CALLDATACOPY, CODECOPY *)
Theorem op_copy v w rv code m si op src rest n soff dst : In (op, src) [(0x37, msg_input m); (0x39, code)] -> at_op g v code m si op ->
  si_stack si = rest ++ [n; soff; dst] ->
  let cost := 3 + 3 * words n + growth_cost (si_mem si) dst n in
  (cost <= msg_gas m -> exists mem',
     steps_to g v w rv code m si (running rv (si_pc si + 1) (msg_gas m - cost) (si_refunds si) rest mem' (si_ret si)) w /\
     overwritten (si_mem si) mem' (grown (si_mem si) dst n) dst n (fun i => data_at src (soff + i))) /\
  (msg_gas m < cost -> out_of_gas g v w rv code m si).
Proof.
  intros HIn A Hs cost. pose proof (stack_room code m si rest [n; soff; dst] 3 (at_args _ _ _ _ _ _ A) Hs eq_refl) as Hh.
  destruct (top3_nonneg _ _ _ _ _ _ _ _ _ A Hs) as (Hn & Ho & Hd).
  assert (Hc : 0 <= 3 * words n + growth_cost (si_mem si) dst n) by (pose proof (words_nonneg n Hn); pose proof (growth_nonneg (si_mem si) dst n); lia).
  assert (Hi : instruction op = Some (mkInstr 3 0 3 Istanbul false)).
  { cbn [In] in HIn. destruct HIn as [E|[E|[]]]; injection E as <- <-; reflexivity. }
  assert (He : forall f : frame W, SpecEvm.exec (g_host g) (nested g) keccak m rv code (is_dest code) op f = i_copy src f).
  { intros f. cbn [In] in HIn. destruct HIn as [E|[E|[]]]; injection E as <- <-; reflexivity. }
  destruct (dyn_op g Hg v w rv code m si op _ [dst; soff; n] rest (3 * words n + growth_cost (si_mem si) dst n)
    (fun f => yield (rev rest) (with_mem (write_bytes (f_mem f) dst (data_bytes src soff n)) (touch dst n f))) _
    A Hi (istanbul rv) eq_refl Hs eq_refl ltac:(cbn [in_results]; lia) Hc
    ltac:(cbv zeta; rewrite He; unfold i_copy; cbn [with_gas frame_in f_stack]; rewrite Hs, rev_app_distr; cbn [rev app]; rewrite <- (fee_eq m w si (msg_gas m - 3)); reflexivity)
    eq_refl) as [X Y]. flds.
  assert (Ec : 3 + (3 * words n + growth_cost (si_mem si) dst n) = cost) by (unfold cost; lia). rewrite Ec in *.
  split; [|exact Y]. intros Hf. destruct (X Hf) as [R S]. eexists. split.
  - flds. rewrite rev_involutive in R. exact R.
  - refine (show_mem code _ (si_mem si) dst n (fun i => data_at src (soff + i)) S _). intros i Hi'. flds.
    rewrite write_eq, data_bytes_zlen. rewrite Z.max_r by lia. destruct (Z.leb_spec dst i), (Z.ltb_spec i (dst + n)); cbn [andb]; try reflexivity.
    rewrite data_bytes_read, read_bytes_at by lia. reflexivity.
Qed.

Theorem op_returndatacopy v w rv code m si rest n soff dst : at_op g v code m si 0x3E -> si_stack si = rest ++ [n; soff; dst] ->
  let cost := 3 + 3 * words n + growth_cost (si_mem si) dst n in
  (cost <= msg_gas m -> soff + n <= zlen (si_ret si) -> exists mem',
     steps_to g v w rv code m si (running rv (si_pc si + 1) (msg_gas m - cost) (si_refunds si) rest mem' (si_ret si)) w /\
     overwritten (si_mem si) mem' (grown (si_mem si) dst n) dst n (fun i => data_at (si_ret si) (soff + i))) /\
  (cost <= msg_gas m -> zlen (si_ret si) < soff + n -> exists so, steps_to g v w rv code m si so w /\ failed rv si EVMC_INVALID_MEMORY_ACCESS so) /\
  (msg_gas m < cost -> out_of_gas g v w rv code m si).
Proof.
  intros A Hs cost. pose proof (stack_room code m si rest [n; soff; dst] 3 (at_args _ _ _ _ _ _ A) Hs eq_refl) as Hh.
  destruct (top3_nonneg _ _ _ _ _ _ _ _ _ A Hs) as (Hn & Ho & Hd). pose proof (zlen_nonneg rest).
  assert (Hc : 0 <= 3 * words n + growth_cost (si_mem si) dst n) by (pose proof (words_nonneg n Hn); pose proof (growth_nonneg (si_mem si) dst n); lia).
  assert (Hz : zlen (si_stack si) = zlen rest + 3) by (rewrite Hs, zlen_app; reflexivity).
  set (k := fun f' : frame W => if zlen (f_ret f') <? soff + n then Fail ReturnDataOutOfBounds f'
    else yield (rev rest) (with_mem (write_bytes (f_mem f') dst (data_bytes (f_ret f') soff n)) (touch dst n f'))).
  assert (He : let f := with_gas (msg_gas m - 3) (frame_in m w si) in
    SpecEvm.exec (g_host g) (nested g) keccak m rv code (is_dest code) 0x3E f = charge (3 * words n + growth_cost (si_mem si) dst n) f k).
  { shape Hs. unfold i_returndatacopy. cbn [with_gas frame_in f_stack]. rewrite Hs, rev_app_distr. cbn [rev app].
    rewrite <- (fee_eq m w si (msg_gas m - 3)). reflexivity. }
  destruct (charged g Hg v w rv code m si 0x3E (mkInstr 3 0 3 Istanbul false) _ k A eq_refl (istanbul rv) eq_refl ltac:(cbn [in_args]; lia) ltac:(cbn [in_args in_results]; lia) Hc He) as [Y X].
  cbn [in_fee] in X, Y. assert (Ec : 3 + (3 * words n + growth_cost (si_mem si) dst n) = cost) by (unfold cost; lia). rewrite Ec in *.
  split; [|split; [|exact Y]]; intros Hf Hb; destruct (X Hf) as [X1 X2]; unfold k in X2; flds.
  - destruct (Z.ltb_spec (zlen (si_ret si)) (soff + n)) as [|_]; [lia|].
    destruct (next_result g Hg v w rv code m si 0x3E (mkInstr 3 0 3 Istanbul false) _ A eq_refl (istanbul rv) eq_refl ltac:(cbn [in_args]; lia) ltac:(cbn [in_args in_results]; lia) X1 X2) as [R S].
    eexists. split.
    + flds. rewrite rev_involutive in R. exact R.
    + refine (show_mem code _ (si_mem si) dst n (fun i => data_at (si_ret si) (soff + i)) S _). intros i Hi. flds.
      rewrite write_eq, data_bytes_zlen. rewrite Z.max_r by lia. destruct (Z.leb_spec dst i), (Z.ltb_spec i (dst + n)); cbn [andb]; try reflexivity.
      rewrite data_bytes_read, read_bytes_at by lia. reflexivity.
  - destruct (Z.ltb_spec (zlen (si_ret si)) (soff + n)) as [_|]; [|lia].
    destruct (fail_result g Hg v w rv code m si 0x3E (mkInstr 3 0 3 Istanbul false) _ _ A eq_refl (istanbul rv) eq_refl ltac:(cbn [in_args]; lia) ltac:(cbn [in_args in_results]; lia) X1 X2) as (so & R1 & R2).
    exists so. split; [exact R1|exact R2].
Qed.

(** SHA3 *)
Theorem op_sha3 v w rv code m si rest n off : at_op g v code m si 0x20 -> si_stack si = rest ++ [n; off] ->
  let cost := 30 + 6 * words n + growth_cost (si_mem si) off n in
  (cost <= msg_gas m -> exists mem',
     steps_to g v w rv code m si (running rv (si_pc si + 1) (msg_gas m - cost) (si_refunds si) (rest ++ [g_keccak g (data_bytes (si_mem si) off n)]) mem' (si_ret si)) w /\
     overwritten (si_mem si) mem' (grown (si_mem si) off n) 0 0 (fun _ => 0)) /\
  (msg_gas m < cost -> out_of_gas g v w rv code m si).
Proof.
  intros A Hs cost. pose proof (stack_room code m si rest [n; off] 2 (at_args _ _ _ _ _ _ A) Hs eq_refl) as Hh.
  assert (Hn : 0 <= n).
  { pose proof (sk_words _ _ _ (at_args _ _ _ _ _ _ A)) as F. rewrite Hs in F. apply Forall_app in F. destruct F as [_ F]. inversion F as [|? ? F1 F2]; subst. apply F1. }
  assert (Hc : 0 <= 6 * words n + growth_cost (si_mem si) off n) by (pose proof (words_nonneg n Hn); pose proof (growth_nonneg (si_mem si) off n); lia).
  destruct (dyn_op g Hg v w rv code m si 0x20 _ [off; n] rest (6 * words n + growth_cost (si_mem si) off n)
    (fun f => yield (keccak (read_bytes (f_mem f) off n) :: rev rest) (touch off n f)) _
    A eq_refl (istanbul rv) eq_refl Hs eq_refl ltac:(cbn [in_results]; lia) Hc
    ltac:(shape Hs; unfold i_sha3; cbn [with_gas frame_in f_stack]; rewrite Hs, rev_app_distr; cbn [rev app]; rewrite <- (fee_eq m w si (msg_gas m - 30)); reflexivity)
    eq_refl) as [X Y]. flds.
  assert (Ec : 30 + (6 * words n + growth_cost (si_mem si) off n) = cost) by (unfold cost; lia). rewrite Ec in *.
  split; [|exact Y]. intros Hf. destruct (X Hf) as [R S]. eexists. split.
  - flds. rewrite rev_involutive in R. rewrite data_bytes_read. exact R.
  - refine (show_mem code _ (si_mem si) 0 0 (fun _ => 0) S _). intros i Hi. flds.
    destruct (Z.leb_spec 0 i), (Z.ltb_spec i (0 + 0)); try lia; reflexivity.
Qed.
End Ops.
