(** Single instructions, as observed through StepN. *)
From Verif Require Import Base Host SpecEvm SpecVm MemFacts JumpFacts ArithFacts SpecFacts Vm VmFacts SpecStep StepFacts Client ClientFacts SpecOps.
From Coq Require Import Lia ZArith List Bool.
Import ListNotations.

Section Ops.
Context {W : Type}.
Variable g : setting W.
Hypothesis Hg : setting_ok g.
Notation H := (g_host g).
Notation keccak := (g_keccak g).
Notation sexec := (SpecEvm.exec H (nested g) keccak).

(** the frame that a running result shows *)
Lemma next_result v w rv code m si op i f' : at_op g v code m si op -> instruction op = Some i ->
  rev_ge rv (in_since i) = true -> in_stateful i && static m = false ->
  in_args i <= zlen (si_stack si) -> zlen (si_stack si) - in_args i + in_results i <= 1024 -> in_fee i <= msg_gas m ->
  sexec m rv code (is_dest code) op (with_gas (msg_gas m - in_fee i) (frame_in m w si)) = Next f' ->
  steps_to g v w rv code m si (running rv (f_pc f') (f_gas f') (f_refund f') (rev (f_stack f')) (read_bytes (f_mem f') 0 (f_active f')) (f_ret f')) (f_world f')
  /\ still_ok code f'.
Proof.
  intros A Hi H1 H2 H3 H4 H5 He. destruct (one_step g Hg v w rv code m si op A) as (so & w' & v' & E & Hv & HR & HN).
  rewrite (step_checked g m rv code w si i op (at_code _ _ _ _ _ _ A) Hi H1 H2 H3 H4 H5), He in *. cbn [one_result] in HR. destruct HR as [-> ->].
  split; [exists v'; split; [exact E|exact Hv]|]. apply (HN f' eq_refl).
Qed.
Lemma halt_result v w rv code m si op i h data f' : at_op g v code m si op -> instruction op = Some i ->
  rev_ge rv (in_since i) = true -> in_stateful i && static m = false ->
  in_args i <= zlen (si_stack si) -> zlen (si_stack si) - in_args i + in_results i <= 1024 -> in_fee i <= msg_gas m ->
  sexec m rv code (is_dest code) op (with_gas (msg_gas m - in_fee i) (frame_in m w si)) = Halt h data f' ->
  steps_to g v w rv code m si (ended (step_halt h) (halt_status h) rv (f_pc f') (f_gas f') (f_refund f') (rev (f_stack f'))
    (read_bytes (f_mem f') 0 (f_active f')) data) (f_world f').
Proof.
  intros A Hi H1 H2 H3 H4 H5 He. destruct (one_step g Hg v w rv code m si op A) as (so & w' & v' & E & Hv & HR & HN).
  rewrite (step_checked g m rv code w si i op (at_code _ _ _ _ _ _ A) Hi H1 H2 H3 H4 H5), He in *. cbn [one_result] in HR. destruct HR as [-> ->].
  exists v'; split; [exact E|exact Hv].
Qed.
Lemma fail_result v w rv code m si op i e f' : at_op g v code m si op -> instruction op = Some i ->
  rev_ge rv (in_since i) = true -> in_stateful i && static m = false ->
  in_args i <= zlen (si_stack si) -> zlen (si_stack si) - in_args i + in_results i <= 1024 -> in_fee i <= msg_gas m ->
  sexec m rv code (is_dest code) op (with_gas (msg_gas m - in_fee i) (frame_in m w si)) = Fail e f' ->
  exists so, steps_to g v w rv code m si so (f_world f') /\ failed rv si (failure_status e) so.
Proof.
  intros A Hi H1 H2 H3 H4 H5 He. destruct (one_step g Hg v w rv code m si op A) as (so & w' & v' & E & Hv & HR & HN).
  rewrite (step_checked g m rv code w si i op (at_code _ _ _ _ _ _ A) Hi H1 H2 H3 H4 H5), He in *. cbn [one_result] in HR. destruct HR as [HF ->].
  exists so. split; [exists v'; split; [exact E|exact Hv]|exact HF].
Qed.

Lemma zlen_snoc {A} (l : list A) x : zlen (l ++ [x]) = zlen l + 1.
Proof. rewrite zlen_app, zlen_cons, zlen_nil. lia. Qed.
Lemma zlen_rev {A} (l : list A) : zlen (rev l) = zlen l.
Proof. unfold zlen. rewrite rev_length. reflexivity. Qed.

(** an instruction that only replaces the topmost elements of the stack *)
Lemma only_stack v w rv code m si op i ins outs rest : at_op g v code m si op -> instruction op = Some i ->
  rev_ge rv (in_since i) = true -> in_stateful i = false ->
  si_stack si = rest ++ rev ins -> zlen ins = in_args i -> zlen outs = in_results i ->
  zlen rest + in_results i <= 1024 -> in_fee i <= msg_gas m ->
  (forall f, f_stack f = ins ++ rev rest -> f_world f = w -> f_ret f = si_ret si -> f_pc f = si_pc si -> f_active f = 32 * words (zlen (si_mem si)) ->
     f_gas f = msg_gas m - in_fee i ->
     sexec m rv code (is_dest code) op f = yield (outs ++ rev rest) f) ->
  steps_to g v w rv code m si (running rv (si_pc si + 1) (msg_gas m - in_fee i) (si_refunds si) (rest ++ rev outs) (whole_words (si_mem si)) (si_ret si)) w.
Proof.
  intros A Hi H1 H2 Hs Ha Ho Hh Hf He.
  assert (Hl : zlen (si_stack si) = zlen rest + in_args i) by (rewrite Hs, zlen_app, zlen_rev; lia).
  destruct (next_result v w rv code m si op i
    (with_pc (si_pc si + 1) (with_stack (outs ++ rev rest) (with_gas (msg_gas m - in_fee i) (frame_in m w si)))) A Hi H1) as [X _].
  - rewrite H2. reflexivity.
  - pose proof (zlen_nonneg rest). lia.
  - lia.
  - exact Hf.
  - apply He; try reflexivity. cbn [with_gas frame_in f_stack]. rewrite Hs, rev_app_distr, rev_involutive. reflexivity.
  - cbn [with_pc with_stack with_gas frame_in f_pc f_gas f_refund f_stack f_mem f_active f_ret f_world] in X.
    rewrite rev_app_distr, rev_involutive, <- whole_words_eq in X. exact X.
Qed.

Lemma stack_room code m si rest x n : step_ok code m si -> si_stack si = rest ++ x -> zlen x = n -> zlen rest + n <= 1024.
Proof. intros K E L. pose proof (sk_height _ _ _ K) as X. rewrite E, zlen_app in X. lia. Qed.

Lemma row_eq {A B C} (x x' : A) (y y' : B) (z z' : C) : (x, y, z) = (x', y', z') -> x = x' /\ y = y' /\ z = z'.
Proof. intros E. injection E. auto. Qed.
Ltac table HIn E := repeat (destruct HIn as [HIn|HIn]; [apply row_eq in HIn; destruct HIn as (<- & <- & E)|]); [..|contradiction].

Lemma istanbul rv : rev_ge rv Istanbul = true. Proof. destruct rv; reflexivity. Qed.
Lemma gtb_ltb' a b : (a >? b) = (b <? a). Proof. rewrite Z.gtb_ltb. reflexivity. Qed.

Lemma byte_of_eq a b : byte_of a b = w_byte a b.
Proof.
  unfold byte_of, w_byte. destruct (a <? 32); [|reflexivity].
  assert (E : 2 ^ (8 * (31 - a)) = 256 ^ (31 - a)).
  { destruct (Z.le_gt_cases a 31).
    - change 256 with (2 ^ 8). rewrite <- Z.pow_mul_r by lia. reflexivity.
    - rewrite !Z.pow_neg_r by lia. reflexivity. }
  rewrite E. reflexivity.
Qed.

Lemma bin_ext (q q' : Z -> Z -> Z) (f : frame W) a b s : f_stack f = a :: b :: s -> q a b = q' a b -> bin q f = yield ([q' a b] ++ s) f.
Proof. intros Es E. unfold bin. rewrite Es, E. reflexivity. Qed.

Theorem op_bin v w rv code m si op fee fn rest a b :
  In (op, fee, fn) (arithmetic2 ++ bitwise2) -> at_op g v code m si op -> si_stack si = rest ++ [b; a] -> fee <= msg_gas m ->
  steps_to g v w rv code m si (running rv (si_pc si + 1) (msg_gas m - fee) (si_refunds si) (rest ++ [fn a b]) (whole_words (si_mem si)) (si_ret si)) w.
Proof.
  intros HIn A Hs Hf. pose proof (stack_room code m si rest [b; a] 2 (at_args _ _ _ _ _ _ A) Hs eq_refl) as Hh.
  assert (Hw : is_word a /\ is_word b).
  { pose proof (sk_words _ _ _ (at_args _ _ _ _ _ _ A)) as F. rewrite Hs in F. apply Forall_app in F. destruct F as [_ F].
    inversion F as [|? ? F1 F2]; subst. inversion F2; subst. auto. }
  unfold arithmetic2, bitwise2 in HIn. cbn [app In] in HIn.
  table HIn E; (eapply (only_stack v w rv code m si _ _ [a; b] [fn a b] rest A eq_refl (istanbul rv) eq_refl Hs eq_refl eq_refl); cbn [in_results in_fee];
    [unfold G_verylow, G_low in *; lia|assumption|]); intros f Es _ _ _ _ _;
  cbn [SpecEvm.exec]; refine (bin_ext _ fn f a b (rev rest) Es _); rewrite <- E; cbv beta; clear E;
  lazymatch goal with
  | |- w_byte _ _ = _ => exact (eq_sym (byte_of_eq a b))
  | |- _ => unfold to_word, w_div, w_sdiv, w_mod, w_smod, w_signextend, w_shl, w_shr, w_sar, uns, sgn, truth, sign_extend, shift_left, shift_right,
    arithmetic_shift, bool_word, U, signed, uns, sgn, to_word, U; rewrite ?gtb_ltb'; reflexivity
  end.
Qed.
Theorem op_un v w rv code m si op fee fn rest a :
  In (op, fee, fn) unary -> at_op g v code m si op -> si_stack si = rest ++ [a] -> fee <= msg_gas m ->
  steps_to g v w rv code m si (running rv (si_pc si + 1) (msg_gas m - fee) (si_refunds si) (rest ++ [fn a]) (whole_words (si_mem si)) (si_ret si)) w.
Proof.
  intros HIn A Hs Hf. pose proof (stack_room code m si rest [a] 1 (at_args _ _ _ _ _ _ A) Hs eq_refl) as Hh.
  unfold unary in HIn. cbn [app In] in HIn.
  table HIn E; (eapply (only_stack v w rv code m si _ _ [a] [fn a] rest A eq_refl (istanbul rv) eq_refl Hs eq_refl eq_refl); cbn [in_results in_fee];
    [unfold G_verylow, G_low in *; lia|assumption|]); intros f Es _ _ _ _ _;
  cbn [SpecEvm.exec]; unfold un; rewrite Es, <- E; reflexivity.
Qed.
Theorem op_tern v w rv code m si op fee fn rest a b c :
  In (op, fee, fn) arithmetic3 -> at_op g v code m si op -> si_stack si = rest ++ [c; b; a] -> fee <= msg_gas m ->
  steps_to g v w rv code m si (running rv (si_pc si + 1) (msg_gas m - fee) (si_refunds si) (rest ++ [fn a b c]) (whole_words (si_mem si)) (si_ret si)) w.
Proof.
  intros HIn A Hs Hf. pose proof (stack_room code m si rest [c; b; a] 3 (at_args _ _ _ _ _ _ A) Hs eq_refl) as Hh.
  unfold arithmetic3 in HIn. cbn [app In] in HIn.
  table HIn E; (eapply (only_stack v w rv code m si _ _ [a; b; c] [fn a b c] rest A eq_refl (istanbul rv) eq_refl Hs eq_refl eq_refl); cbn [in_results in_fee];
    [unfold G_mid in *; lia|assumption|]); intros f Es _ _ _ _ _;
  cbn [SpecEvm.exec]; unfold tern; rewrite Es, <- E; reflexivity.
Qed.
Theorem op_env v w rv code m si op fee since x :
  In (op, fee, since, x) (environment H w m code) -> at_op g v code m si op -> rev_ge rv since = true ->
  zlen (si_stack si) < 1024 -> fee <= msg_gas m ->
  steps_to g v w rv code m si (running rv (si_pc si + 1) (msg_gas m - fee) (si_refunds si) (si_stack si ++ [x]) (whole_words (si_mem si)) (si_ret si)) w.
Proof.
  intros HIn A Hr Hh Hf. unfold environment in HIn. cbn [app In] in HIn.
  repeat (destruct HIn as [HIn|HIn]; [injection HIn as <- <- <- <-|]); [..|contradiction];
  (eapply (only_stack v w rv code m si _ _ [] [_] (si_stack si) A eq_refl Hr eq_refl (eq_sym (app_nil_r _)) eq_refl eq_refl); cbn [in_results in_fee];
    [lia|assumption|]); intros f Es Ew _ _ _ _;
  cbn [SpecEvm.exec]; unfold i_tx, push; rewrite Es, ?Ew; reflexivity.
Qed.

(** ** Instructions with a dynamic cost *)
Lemma args_ok op i : is_byte op -> instruction op = Some i -> 0 <= in_args i /\ 0 <= in_fee i.
Proof.
  intros Hb Hi. split; [|exact (fee_nn _ _ Hb Hi)].
  pose proof (byte_check (fun b => match instruction b with Some i => 0 <=? in_args i | None => true end) eq_refl op Hb) as X. cbv beta in X.
  rewrite Hi in X. apply Z.leb_le. exact X.
Qed.
Lemma at_byte v code m si op : at_op g v code m si op -> is_byte op.
Proof. intros [A1 A2 A3 A4 A5 A6]. rewrite <- A6. apply code_at_byte. apply (eok_code _ _ _ A2). Qed.

Lemma charged v w rv code m si op i c k : at_op g v code m si op -> instruction op = Some i ->
  rev_ge rv (in_since i) = true -> in_stateful i && static m = false ->
  in_args i <= zlen (si_stack si) -> zlen (si_stack si) - in_args i + in_results i <= 1024 -> 0 <= c ->
  (let f := with_gas (msg_gas m - in_fee i) (frame_in m w si) in sexec m rv code (is_dest code) op f = charge c f k) ->
  (msg_gas m < in_fee i + c -> out_of_gas g v w rv code m si) /\
  (in_fee i + c <= msg_gas m -> in_fee i <= msg_gas m /\
     sexec m rv code (is_dest code) op (with_gas (msg_gas m - in_fee i) (frame_in m w si)) = k (with_gas (msg_gas m - (in_fee i + c)) (frame_in m w si))).
Proof.
  intros A Hi H1 H2 H3 H4 Hc He. cbv zeta in He. rewrite He. unfold charge. cbn [with_gas f_gas].
  split.
  - intros Hlt. destruct (Z.lt_ge_cases (msg_gas m) (in_fee i)) as [Hl|Hl].
    + destruct (one_step g Hg v w rv code m si op A) as (so & w' & v' & E & Hv & HR & HN).
      unfold ref_step, step in HR. change (f_pc (frame_in m w si)) with (si_pc si) in HR.
      rewrite (at_code _ _ _ _ _ _ A), Hi, H1, H2 in HR. cbn [negb] in HR.
      change (f_stack (frame_in m w si)) with (rev (si_stack si)) in HR. rewrite zlen_rev in HR.
      destruct (Z.ltb_spec (zlen (si_stack si)) (in_args i)); [lia|].
      destruct (Z.ltb_spec 1024 (zlen (si_stack si) - in_args i + in_results i)); [lia|].
      unfold charge in HR. change (f_gas (frame_in m w si)) with (msg_gas m) in HR.
      destruct (Z.ltb_spec (msg_gas m) (in_fee i)); [|lia]. cbn [one_result] in HR. destruct HR as [HF ->].
      exists so. split; [exists v'; split; [exact E|exact Hv]|exact HF].
    + destruct (fail_result v w rv code m si op i OutOfGas (with_gas (msg_gas m - in_fee i) (frame_in m w si)) A Hi H1 H2 H3 H4 Hl) as (so & X & Y).
      * rewrite He. unfold charge. cbn [with_gas f_gas]. destruct (Z.ltb_spec (msg_gas m - in_fee i) c); [reflexivity|lia].
      * exists so. split; [exact X|exact Y].
  - intros Hge. split; [lia|]. destruct (Z.ltb_spec (msg_gas m - in_fee i) c); [lia|]. f_equal. unfold with_gas. cbn [f_pc f_gas f_stack f_mem f_active f_ret f_refund f_world].
    f_equal. lia.
Qed.

Lemma dyn_op v w rv code m si op i ins rest c k f' : at_op g v code m si op -> instruction op = Some i ->
  rev_ge rv (in_since i) = true -> in_stateful i && static m = false ->
  si_stack si = rest ++ rev ins -> zlen ins = in_args i -> zlen rest + in_results i <= 1024 -> 0 <= c ->
  (let f := with_gas (msg_gas m - in_fee i) (frame_in m w si) in sexec m rv code (is_dest code) op f = charge c f k) ->
  k (with_gas (msg_gas m - (in_fee i + c)) (frame_in m w si)) = Next f' ->
  (in_fee i + c <= msg_gas m ->
    steps_to g v w rv code m si (running rv (f_pc f') (f_gas f') (f_refund f') (rev (f_stack f')) (read_bytes (f_mem f') 0 (f_active f')) (f_ret f')) (f_world f')
    /\ still_ok code f') /\
  (msg_gas m < in_fee i + c -> out_of_gas g v w rv code m si).
Proof.
  intros A Hi H1 H2 Hs Hl Hh Hc He Hk.
  assert (Hz : zlen (si_stack si) = zlen rest + in_args i) by (rewrite Hs, zlen_app, zlen_rev; lia). pose proof (zlen_nonneg rest).
  destruct (charged v w rv code m si op i c k A Hi H1 H2 ltac:(lia) ltac:(lia) Hc He) as [X Y].
  split; [|exact X]. intros Hf. destruct (Y Hf) as [Y1 Y2]. rewrite Hk in Y2.
  apply (next_result v w rv code m si op i f' A Hi H1 H2 ltac:(lia) ltac:(lia) Y1 Y2).
Qed.

Lemma fee_eq m (w : W) si g' off n : mem_fee (with_gas g' (frame_in m w si)) off n = growth_cost (si_mem si) off n.
Proof. unfold mem_fee, growth_cost, grown. cbn [with_gas frame_in f_active]. rewrite Gmem_words. reflexivity. Qed.
Lemma growth_nonneg mem off n : 0 <= growth_cost mem off n.
Proof.
  unfold growth_cost, grown. rewrite <- (Gmem_words (zlen mem)). apply fee_nonneg.
  pose proof (words_nonneg (zlen mem) (zlen_nonneg mem)). lia.
Qed.

Lemma show_mem code (f' : frame W) mem dst n byte : still_ok code f' ->
  (forall i, 0 <= i -> f_mem f' i = if (dst <=? i) && (i <? dst + n) then byte (i - dst) else data_at mem i) ->
  overwritten mem (read_bytes (f_mem f') 0 (f_active f')) (f_active f') dst n byte.
Proof.
  intros (S0 & S1 & S2 & S3 & S4 & S5 & S6 & S7 & _) Hm. split; [rewrite read_bytes_zlen; lia|]. intros i Hi. rewrite <- Hm by exact Hi.
  destruct (Z.lt_ge_cases i (f_active f')) as [Hlt|Hge].
  - rewrite read_bytes_at by lia. reflexivity.
  - rewrite data_at_out by (rewrite read_bytes_zlen; lia). symmetry. apply S5. exact Hge.
Qed.
Lemma nth_data l i : 0 <= i < zlen l -> nth (Z.to_nat i) l 0 = data_at l i.
Proof. intros Hi. rewrite data_at_in by exact Hi. reflexivity. Qed.
Lemma write_eq (mf : Z -> Z) off bs i : write_bytes mf off bs i = if (off <=? i) && (i <? off + zlen bs) then data_at bs (i - off) else mf i.
Proof.
  unfold write_bytes. destruct (Z.leb_spec off i); cbn [andb]; [|reflexivity]. destruct (Z.ltb_spec i (off + zlen bs)); [|reflexivity].
  apply nth_data. lia.
Qed.

Lemma bytes_range mem : Forall is_byte mem -> forall i, is_byte (data_at mem i).
Proof. intros Hb i. apply data_at_byte. exact Hb. Qed.

Theorem op_exp v w rv code m si rest a x n : at_op g v code m si 0x0A -> si_stack si = rest ++ [x; a] ->
  0 <= n -> x < 256 ^ n -> n = 0 \/ 256 ^ (n - 1) <= x ->
  (10 + 50 * n <= msg_gas m ->
     steps_to g v w rv code m si (running rv (si_pc si + 1) (msg_gas m - (10 + 50 * n)) (si_refunds si) (rest ++ [a ^ x mod 2 ^ 256])
       (whole_words (si_mem si)) (si_ret si)) w) /\
  (msg_gas m < 10 + 50 * n -> out_of_gas g v w rv code m si).
Proof.
  intros A Hs Hn Hlt Hge. pose proof (stack_room code m si rest [x; a] 2 (at_args _ _ _ _ _ _ A) Hs eq_refl) as Hh.
  assert (Hx : 0 <= x).
  { pose proof (sk_words _ _ _ (at_args _ _ _ _ _ _ A)) as F. rewrite Hs in F. apply Forall_app in F. destruct F as [_ F]. inversion F as [|? ? F1 F2]; subst. apply F1. }
  assert (Hbc : byte_count x = n).
  { unfold byte_count. destruct (Z.eqb_spec x 0) as [->|Hx0].
    - destruct Hge as [->|Hge]; [reflexivity|]. destruct (Z.le_gt_cases 1 n) as [H1|H1]; [|lia]. pose proof (Z.pow_pos_nonneg 256 (n - 1) ltac:(lia) ltac:(lia)). lia.
    - destruct Hge as [->|Hge]; [cbn in Hlt; lia|]. destruct (Z.eq_dec n 0) as [->|Hn0]; [cbn in Hlt; lia|].
      assert (E : forall k, 0 <= k -> 256 ^ k = 2 ^ (8 * k)) by (intros k Hk; rewrite Z.pow_mul_r by lia; reflexivity).
      rewrite E in Hge, Hlt by lia. apply Z.log2_le_pow2 in Hge; [|lia]. apply Z.log2_lt_pow2 in Hlt; [|lia].
      assert (Z.log2 x / 8 = n - 1); [|lia]. symmetry. apply (Z.div_unique_pos _ _ _ (Z.log2 x - 8 * (n - 1))); lia. }
  destruct (dyn_op v w rv code m si 0x0A _ [a; x] rest (50 * n) (fun f => yield (a ^ x mod 2 ^ 256 :: rev rest) f) _
    A eq_refl (istanbul rv) eq_refl Hs eq_refl ltac:(cbn [in_results]; lia) ltac:(lia)
    ltac:(cbv zeta; cbn [SpecEvm.exec]; unfold i_exp; cbn [with_gas frame_in f_stack]; rewrite Hs, rev_app_distr; cbn [rev app]; rewrite Hbc; reflexivity)
    eq_refl) as [X Y].
  split; [|exact Y]. intros Hf. destruct (X Hf) as [R _].
  cbn [with_pc with_stack with_gas frame_in f_pc f_gas f_refund f_stack f_mem f_active f_ret f_world rev in_fee] in R.
  rewrite rev_involutive, <- whole_words_eq in R. exact R.
Qed.
End Ops.
