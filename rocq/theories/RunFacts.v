(** Gas, memory, refund and height along runs, started from any state that a client may pass to StepN. *)
From Verif Require Import Base Host SpecEvm SpecCall SpecVm MemFacts JumpFacts SpecFacts SpecHost FrameFacts Vm VmFacts SpecStep StepFacts Client ClientFacts OpFacts ApiFacts.
From Coq Require Import Lia ZArith List Bool.
Import ListNotations.

Section Run.
Context {W : Type}.
Variable g : setting W.
Hypothesis Hg : setting_ok g.
Notation hst := (g_host g).

Lemma frame_still code m (w : W) si : exec_ok (g_code_of g) code m -> step_ok code m si -> still_ok code (frame_in m w si).
Proof.
  intros He [K1 K2 K3 K4 K5 K6 K7 K8]. pose proof (mok_gas _ (eok_msg _ _ _ He)).
  unfold still_ok. cbn [frame_in f_gas f_pc f_stack f_mem f_active f_ret f_refund]. rewrite words_mul, Gmem_words.
  pose proof (words_nonneg (zlen (si_mem si)) (zlen_nonneg _)). pose proof (words_bound (zlen (si_mem si))).
  split; [lia|]. split; [exact K1|]. split; [apply Forall_rev; exact K2|]. split; [unfold zlen in *; rewrite rev_length; exact K3|].
  split; [intros i Hi; apply data_at_byte; exact K4|]. split; [intros i Hi; apply data_at_out; lia|]. repeat split; try assumption; try lia.
Qed.
Lemma run_still m rv code n : exec_ok (g_code_of g) code m -> forall f f', still_ok code f -> f_gas f < 2 ^ 54 -> ref_run g m rv code n f = Next f' -> still_ok code f'.
Proof.
  intros He f f' HS Hf E. pose proof Hg as [G1 G2 G3 G4]. destruct (nested_ok g Hg (msg_depth m) (depth_ok g _ _ He)) as [C1 C2].
  destruct (all_still hst (g_keccak g) (g_bufs g) (g_code_of g) G1 G2 G3 _ (nested g) rv code m He C1 C2 f HS Hf n f' E) as [S _]. exact S.
Qed.
(** what [n] instructions do to gas, memory and refund *)
Definition spent (n : nat) (f : frame W) (o : outcome W) : Prop :=
  match o with
  | Next f' => (n = O /\ f' = f) \/ ((0 < n)%nat /\ 0 <= f_gas f /\ dec (Z.of_nat n) f f')
  | Halt _ out f' => 0 <= f_gas f /\ dec 0 f f' /\ Forall is_byte out /\ zlen out <= Z.max 0 (f_active f')
  | Fail _ f' => Z.abs (f_refund f' - f_refund f) <= 199 * Z.max 0 (f_gas f) /\ f_active f <= f_active f'
  end.
Lemma run_spent m rv code n : exec_ok (g_code_of g) code m -> forall f, still_ok code f -> f_gas f < 2 ^ 54 -> spent n f (ref_run g m rv code n f).
Proof.
  intros He. induction n as [|n IH]; intros f HS Hf; [left; auto|].
  rewrite run_succ. specialize (IH f HS Hf). destruct (ref_run g m rv code n f) as [f1|h out f1|e f1] eqn:E1; cbn [spent] in IH; [|exact IH|exact IH].
  pose proof (run_still m rv code n He f f1 HS Hf E1) as HS1.
  destruct (Z.lt_ge_cases (f_gas f1) 0) as [Hn|Hn].
  - pose proof (broke g m rv code f1 He Hn) as X. destruct (ref_step g m rv code f1) as [| |e f'] eqn:Es; try destruct X.
    destruct IH as [[-> ->]|(_ & _ & [D1 D2 D3 D4])]; [|lia].
    unfold ref_step, step in Es. unfold spent. assert (f' = f) as ->; [|lia].
    destruct (instruction _) as [i|] eqn:Ei; [|destruct (_ <? _) in Es; injection Es as _ <-; reflexivity].
    destruct (negb _) in Es; [injection Es as _ <-; reflexivity|]. destruct (_ && _) in Es; [injection Es as _ <-; reflexivity|].
    destruct (_ <? _) in Es; [injection Es as _ <-; reflexivity|]. destruct (_ <? _) in Es; [injection Es as _ <-; reflexivity|].
    unfold charge in Es. pose proof (fee_nn _ i (code_at_byte code (f_pc f) (eok_code _ _ _ He)) Ei). destruct (Z.ltb_spec (f_gas f) (in_fee i)); [injection Es as _ <-; reflexivity|lia].
  - pose proof (ref_step_good g Hg m rv code f1 He HS1 Hn) as X. destruct (ref_step g m rv code f1) as [f'|h out f'|e f'] eqn:Es; cbn [good] in X.
    + right. split; [lia|]. destruct X as [D1 D2 D3 D4]. destruct IH as [[-> ->]|(_ & P & [I1 I2 I3 I4])]; (split; [lia|]); split; lia.
    + destruct X as ([D1 D2 D3 D4] & X2 & X3). unfold spent. destruct IH as [[-> ->]|(_ & P & [I1 I2 I3 I4])]; (split; [lia|]); (split; [split; lia|]); auto.
    + destruct X as [X1 X2]. unfold spent. rewrite X1, X2. destruct IH as [[-> ->]|(_ & P & [I1 I2 I3 I4])]; lia.
Qed.

(** the same, as StepN shows it *)
Lemma still_height code f : still_ok (W:=W) code f -> zlen (rev (f_stack f)) <= 1024.
Proof. intros (S0 & S1 & S2 & S3 & _). unfold zlen in *. rewrite rev_length. exact S3. Qed.
Lemma halt_stack_aux m rv code f h out f' : exec_ok (g_code_of g) code m -> still_ok code f -> ref_step g m rv code f = Halt h out f' -> zlen (f_stack f') <= 1024 /\ 0 <= f_active f' /\ f_active f' = 32 * words (f_active f').
Proof.
  intros He HS E. destruct HS as (S0 & S1 & S2 & S3 & S4 & S5 & S6 & S7 & _).
  unfold ref_step, step in E. assert (Hb := code_at_byte code (f_pc f) (eok_code _ _ _ He)). set (b := code_at code (f_pc f)) in *. destruct (instruction b) as [i|] eqn:Ei; [|destruct (_ <? _) in E; discriminate].
  destruct (negb _) in E; [discriminate|]. destruct (_ && _) in E; [discriminate|]. destruct (Z.ltb_spec (zlen (f_stack f)) (in_args i)) as [|Ha]; [discriminate|]. destruct (_ <? _) in E; [discriminate|].
  unfold charge in E. destruct (_ <? _) in E; [discriminate|].
  pose proof (exec_effect hst (nested g) (g_keccak g) m rv code (is_dest code) b i (with_gas (f_gas f - in_fee i) f) Hb Ei Ha) as X. rewrite E in X. cbn [effect] in X.
  assert (D : b = 0x00 \/ b = 0xFF \/ b = 0xF3 \/ b = 0xFD) by (clearbody b; destruct X as [([? | ?] & _)|([(? & _)|(? & _)] & _)]; tauto). clear X. clearbody b. 
  assert (R : forall hh, i_return hh (with_gas (f_gas f - in_fee i) f) = Halt h out f' -> zlen (f_stack f') <= 1024 /\ 0 <= f_active f' /\ f_active f' = 32 * words (f_active f')).
  { intros hh R. unfold i_return in R. change (f_stack (with_gas (f_gas f - in_fee i) f)) with (f_stack f) in R. destruct (f_stack f) as [|x [|y s]]; try discriminate. unfold charge in R. destruct (_ <? _) in R; [discriminate|]. injection R as _ _ <-.
    cbn [f_stack with_pc with_stack touch with_active f_active with_gas]. rewrite !zlen_cons in S3. split; [lia|]. pose proof (expand_ge (f_active f) x y). split; [lia|]. apply expand_words. exact S6. }
  destruct D as [-> | [-> | [-> | ->]]].
  - injection E as _ _ <-. cbn. auto.
  - change (i_selfdestruct hst m rv (with_gas (f_gas f - in_fee i) f) = Halt h out f') in E. unfold i_selfdestruct in E.
    change (f_stack (with_gas (f_gas f - in_fee i) f)) with (f_stack f) in E. destruct (f_stack f) as [|x s]; [discriminate|].
    destruct (rev_ge rv Berlin); [destruct (h_access_account _ _ _)|]; unfold charge in E; (destruct (_ <? _) in E; [discriminate|]; destruct (h_selfdestruct _ _ _ _); injection E as _ _ <-; rewrite zlen_cons in S3; destruct (_ && _); cbn; split; [lia|auto|lia|auto]).
  - exact (R _ E).
  - exact (R _ E).
Qed.
Lemma halt_stack m rv code n : exec_ok (g_code_of g) code m -> forall f h out f', still_ok code f -> f_gas f < 2 ^ 54 -> ref_run g m rv code n f = Halt h out f' -> zlen (f_stack f') <= 1024 /\ 0 <= f_active f' /\ f_active f' = 32 * words (f_active f').
Proof.
  intros He f h out f' HS Hf. induction n as [|n IH]; intros E; [discriminate|]. rewrite run_succ in E. destruct (ref_run g m rv code n f) as [f1|h1 out1 f1|] eqn:E1; [|exact (IH E)|discriminate].
  eapply halt_stack_aux; [exact He| |exact E]. eapply run_still; eassumption.
Qed.

Theorem stepn_spent v w rv code m si so w' v' : reach g v -> exec_ok (g_code_of g) code m -> step_ok code m si -> si_status si = STEP_RUNNING -> 0 <= msg_gas m ->
  StepN g v w rv code m si = Ok (so, w', v') -> step_spent m si so.
Proof.
  intros Hv He Hs Hst Hgas E. destruct (stepn_reference g Hg v w rv code m si Hv He Hs Hst) as (so2 & w2 & v2 & E2 & _ & S & _). rewrite E in E2. injection E2 as <- <- <-.
  pose proof (frame_still code m w si He Hs) as HF. pose proof (mok_gas _ (eok_msg _ _ _ He)) as Hlim.
  pose proof (run_spent m rv code (Z.to_nat (si_steps si)) He (frame_in m w si) HF ltac:(cbn; lia)) as X.
  pose proof (words_nonneg (zlen (si_mem si)) (zlen_nonneg _)) as Wn. pose proof (words_bound (zlen (si_mem si))) as Wb.
  assert (B0 : Gmem (f_active (frame_in m w si)) = Gmem (zlen (si_mem si))) by (cbn [frame_in f_active]; apply Gmem_words).
  unfold step_shows in S. fold (ref_run g m rv code (Z.to_nat (si_steps si)) (frame_in m w si)) in S.
  destruct (ref_run g m rv code (Z.to_nat (si_steps si)) (frame_in m w si)) as [f'|h out f'|e f'] eqn:Er.
  - pose proof (run_still m rv code _ He _ f' HF ltac:(cbn; lia) Er) as HS'. destruct S as [-> ->]. cbn [spent] in X.
    pose proof (still_height code f' HS') as Hh. destruct HS' as (S0 & S1 & S2 & S3 & S4 & S5 & S6 & S7 & _).
    assert (M : zlen (read_bytes (f_mem f') 0 (f_active f')) = f_active f') by (rewrite read_bytes_zlen; lia).
    split; cbn [shown so_step so_gas so_refund so_mem so_stack]; try (intros; discriminate); try exact Hh; rewrite ?M; try (exists (words (f_active f')); exact S6); intros.
    all: destruct X as [[X0 ->]|(X0 & _ & [D1 D2 D3 D4])]; rewrite ?B0 in *; cbn [frame_in f_gas f_refund f_active] in *; lia.
  - destruct (halt_stack m rv code _ He _ h out f' HF ltac:(cbn; lia) Er) as (Hh & A1 & A2). destruct S as [-> ->]. cbn [spent] in X. destruct X as (_ & [D1 D2 D3 D4] & _ & _).
    assert (M : zlen (read_bytes (f_mem f') 0 (f_active f')) = f_active f') by (rewrite read_bytes_zlen; lia).
    rewrite B0 in *; cbn [frame_in f_gas f_refund f_active] in *.
    split; cbn [shown so_step so_gas so_refund so_mem so_stack]; rewrite ?M; try lia; try (intros Y; destruct h; discriminate Y).
    + exists (words (f_active f')); exact A2.
    + unfold zlen in *. rewrite rev_length. exact Hh.
  - destruct S as (k & f1 & K1 & K2 & K3 & K4 & K5 & K6 & K7 & K8 & K9 & K10 & K11 & K12 & K13 & K14). cbn [spent] in X.
    pose proof (run_spent m rv code k He (frame_in m w si) HF ltac:(cbn; lia)) as Y. change (run_for hst (nested g) (g_keccak g) m rv code (is_dest code) k (frame_in m w si)) with (ref_run g m rv code k (frame_in m w si)) in K2. rewrite K2 in Y. cbn [spent] in Y.
    pose proof (run_still m rv code _ He _ f1 HF ltac:(cbn; lia) K2) as HS'. destruct HS' as (S0 & S1 & S2 & S3 & S4 & S5 & S6 & S7 & _).
    assert (M : zlen (read_bytes (f_mem f1) 0 (f_active f1)) = f_active f1) by (rewrite read_bytes_zlen; lia).
    pose proof (sk_height _ _ _ Hs). split; rewrite ?K4, ?K7, ?K8, ?K11, ?M; try (intros; discriminate); try (exists (words (f_active f1)); exact S6); intros.
    all: destruct Y as [[Y0 ->]|(Y0 & _ & [D1 D2 D3 D4])]; rewrite ?B0 in *; cbn [frame_in f_gas f_refund f_active] in *; try lia.
Qed.

(** along the run of a message *)
Theorem observed_spent v w rv code m n so w' : reach g v -> exec_ok (g_code_of g) code m -> observed g v w rv code m n so w' -> so_step so = STEP_RUNNING ->
  so_gas so <= msg_gas m - Z.of_nat n /\ ((0 < n)%nat -> 0 <= so_gas so) /\ Z.abs (so_refund so) <= 199 * (msg_gas m - so_gas so) /\
  (exists k, zlen (so_mem so) = 32 * k) /\ so_gas so + Gmem (zlen (so_mem so)) <= msg_gas m /\ zlen (so_stack so) <= 1024 /\ instr_start code (so_pc so).
Proof.
  intros Hv He Ho Hr. destruct (observed_running g Hg v w rv code m n so w' Hv He Ho Hr) as (f & E & -> & ->).
  pose proof (reached_still g Hg m rv code w n f He E) as HS. pose proof (run_pc g m rv code w n He f E) as Hpc. pose proof (still_height code f HS) as Hh.
  pose proof (initial_still (g_code_of g) code m He w) as HI. pose proof (mok_gas _ (eok_msg _ _ _ He)) as Hlim.
  pose proof (run_spent m rv code n He (initial m w) HI ltac:(cbn; lia)) as X. rewrite E in X. cbn [spent] in X.
  destruct HS as (S0 & S1 & S2 & S3 & S4 & S5 & S6 & S7 & _).
  assert (M : zlen (read_bytes (f_mem f) 0 (f_active f)) = f_active f) by (rewrite read_bytes_zlen; lia).
  cbn [shown so_gas so_refund so_mem so_stack so_pc]. rewrite M. 
  assert (G0 : Gmem 0 = 0) by reflexivity.
  destruct X as [[-> ->]|(X0 & X1 & [D1 D2 D3 D4])]; cbn [initial f_gas f_refund f_active f_pc] in *; (split; [lia|]); (split; [lia|]); (split; [lia|]); (split; [exists (words (f_active f)) || exists 0; first [exact S6|reflexivity]|]); (split; [lia|]); auto.
Qed.
End Run.
