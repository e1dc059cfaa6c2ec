(** Consequences about stack and memory, in the form in which the property files state them. *)
From Verif Require Import Base Host SpecEvm SpecTrace SpecVm Memory Opcodes Interp Vm SpecStep MemFacts JumpFacts ArithFacts SpecFacts VmFacts StepFacts Client ClientFacts
  SpecHost SpecFees FrameFacts OpFacts OpFacts2 OpFacts3 ApiFacts StaticFacts RunFacts FeeFacts SpecTop RefFacts PropFacts PropFacts2.
From Coq Require Import Lia ZArith List Bool.
Import ListNotations.

Section Stack.
Context {W : Type}.
Variable g : setting W.
Hypothesis Hg : setting_ok g.
Notation eok := (exec_ok (g_code_of g)).
Notation hst := (g_host g).

Lemma steps_once v w rv code m si so w' so2 w2 : steps_to g v w rv code m si so w' -> steps_to g v w rv code m si so2 w2 -> so2 = so /\ w2 = w'.
Proof. intros [v1 [E1 _]] [v2 [E2 _]]. rewrite E1 in E2. injection E2 as <- <- _. auto. Qed.

Lemma stack_limits_table v w rv code m si op i so w' : at_op g v code m si op -> steps_to g v w rv code m si so w' -> instruction op = Some i ->
  rev_ge rv (in_since i) = true -> (in_stateful i = true -> static m = false) ->
  let before := zlen (si_stack si) in let after := before - in_args i + in_results i in
  (so_status so = EVMC_STACK_UNDERFLOW <-> before < in_args i) /\
  (so_status so = EVMC_STACK_OVERFLOW <-> in_args i <= before /\ 1024 < after) /\
  (so_step so = STEP_RUNNING -> zlen (so_stack so) = after /\ 0 <= after <= 1024).
Proof.
  intros Ho Hs Hi Hr Hm before after.
  assert (A : available m rv op i) by (split; [assumption|]; split; assumption).
  split; [apply (underflow_exactly g Hg v w rv code m si op i so w' Ho Hs A)|].
  split; [apply (overflow_exactly g Hg v w rv code m si op i so w' Ho Hs A)|].
  intros Hrun. pose proof (height_after g Hg v w rv code m si op i so w' Ho Hs Hi Hrun) as E. split; [exact E|].
  fold before in E. fold after in E. rewrite <- E. split; [apply zlen_nonneg|].
  pose proof (step_checks g Hg v w rv code m si op so w' Ho Hs) as X. unfold checks in X. rewrite Hi, Hr in X. cbn [negb] in X.
  destruct (in_stateful i && static m); [destruct X as [F _]; rewrite (fld_step _ _ _ _ F) in Hrun; discriminate|].
  destruct (_ <? in_args i); [destruct X as [F _]; rewrite (fld_step _ _ _ _ F) in Hrun; discriminate|].
  destruct (Z.ltb_spec 1024 (zlen (si_stack si) - in_args i + in_results i)); [destruct X as [F _]; rewrite (fld_step _ _ _ _ F) in Hrun; discriminate|].
  rewrite E. subst after before. assumption.
Qed.
Theorem stack_limits v w rv code m si op so w' : at_op g v code m si op -> steps_to g v w rv code m si so w' ->
  assigned op = true -> (forall since, In (op, since) introduced -> rev_ge rv since = true) -> (In op modifying -> static m = false) ->
  let before := zlen (si_stack si) in let after := before - pops op + pushes op in
  (so_status so = EVMC_STACK_UNDERFLOW <-> before < pops op) /\
  (so_status so = EVMC_STACK_OVERFLOW <-> pops op <= before /\ 1024 < after) /\
  (so_step so = STEP_RUNNING -> zlen (so_stack so) = after /\ 0 <= after <= 1024).
Proof.
  intros Ho Hs Ha Hi Hm. pose proof (at_byte g v code m si op Ho) as Hb. destruct (instruction op) as [i|] eqn:Ei.
  2:{ apply (table_assigned op Hb) in Ei. congruence. }
  destruct (table_fees op i Hb Ei) as (<- & <- & _). apply (stack_limits_table v w rv code m si op i so w' Ho Hs Ei).
  - rewrite (table_since op i Hb Ei). destruct (rev_ge rv (since_of op)) eqn:Er; [reflexivity|]. apply since_introduced in Er. destruct Er as (s & Hin & Er). rewrite (Hi s Hin) in Er. discriminate.
  - rewrite (table_modifying op i Hb Ei). unfold is_modifying. intros X. apply existsb_exists in X. destruct X as (x & Hx & E). apply Z.eqb_eq in E. subst x. exact (Hm Hx).
Qed.

Theorem run_height v w rv code m n so w' : reach g v -> eok code m -> observed g v w rv code m n so w' -> so_step so = STEP_RUNNING -> zlen (so_stack so) <= 1024.
Proof. intros Hv He Ho Hr. apply (observed_spent g Hg v w rv code m n so w' Hv He Ho Hr). Qed.

Lemma with_bufs_ok bufs tick : (forall n, zlen (bufs n) = 1024) -> setting_ok (with_bufs bufs tick g).
Proof. destruct Hg. intros. split; assumption. Qed.

Theorem recycled_execute bufs tick v v2 w rv code m : (forall n, zlen (bufs n) = 1024) -> reach g v -> reach (with_bufs bufs tick g) v2 -> eok code m ->
  exists r w' v' v2', Execute g v w rv code m = Ok (r, w', v') /\ Execute (with_bufs bufs tick g) v2 w rv code m = Ok (r, w', v2').
Proof.
  intros Hb Hv Hv2 He. destruct (execute_reference g Hg v w rv code m Hv He) as [v' [E _]].
  destruct (execute_reference _ (with_bufs_ok bufs tick Hb) v2 w rv code m Hv2 He) as [v2' [E2 _]].
  eexists _, _, v', v2'. split; [exact E|exact E2].
Qed.

Theorem recycled_step bufs tick v v2 w rv code m si : (forall n, zlen (bufs n) = 1024) -> reach g v -> reach (with_bufs bufs tick g) v2 -> eok code m ->
  step_ok code m si -> si_status si = STEP_RUNNING ->
  exists so so2 w' v' v2', StepN g v w rv code m si = Ok (so, w', v') /\ StepN (with_bufs bufs tick g) v2 w rv code m si = Ok (so2, w', v2') /\
    (so_step so <> STEP_FAILED -> so2 = so) /\
    (so_step so = STEP_FAILED -> so_step so2 = STEP_FAILED /\ so_status so2 = so_status so /\ so_gas so2 = so_gas so /\ so_refund so2 = so_refund so /\
       so_mem so2 = so_mem so /\ zlen (so_stack so2) = zlen (so_stack so) /\ (si_steps si = 1 -> so_stack so2 = so_stack so)).
Proof.
  intros Hb Hv Hv2 He Hs Hst. destruct (stepn_reference g Hg v w rv code m si Hv He Hs Hst) as (so & w' & v' & E & _ & S1 & _).
  destruct (stepn_reference _ (with_bufs_ok bufs tick Hb) v2 w rv code m si Hv2 He Hs Hst) as (so2 & w2 & v2' & E2 & _ & S2 & _).
  unfold step_shows in S1, S2. change (run_for (g_host (with_bufs bufs tick g)) (nested (with_bufs bufs tick g)) (g_keccak (with_bufs bufs tick g))) with (run_for hst (nested g) (g_keccak g)) in S2.
  change (step (g_host (with_bufs bufs tick g)) (nested (with_bufs bufs tick g)) (g_keccak (with_bufs bufs tick g))) with (step hst (nested g) (g_keccak g)) in S2.
  destruct (run_for hst (nested g) (g_keccak g) m rv code (is_dest code) (Z.to_nat (si_steps si)) (frame_in m w si)) as [f|h d f|e f].
  - destruct S1 as [-> ->]. destruct S2 as [-> ->]. eexists _, _, _, _, _. split; [exact E|]. split; [exact E2|]. split; [reflexivity|discriminate].
  - destruct S1 as [-> ->]. destruct S2 as [-> ->]. eexists _, _, _, _, _. split; [exact E|]. split; [exact E2|]. split; [reflexivity|]. destruct h; discriminate.
  - destruct S1 as (k & f1 & K1 & K2 & K3 & K4 & K5 & K6 & K7 & K8 & K9 & K10 & K11 & K12 & K13 & K14).
    destruct S2 as (k' & f1' & L1 & L2 & L3 & L4 & L5 & L6 & L7 & L8 & L9 & L10 & L11 & L12 & L13 & L14).
    assert (KK : k' = k).
    { destruct (lt_eq_lt_dec k k') as [[D| ->]|D]; [exfalso|reflexivity|exfalso].
      - assert (X : run_for hst (nested g) (g_keccak g) m rv code (is_dest code) (S k) (frame_in m w si) = Fail e f).
        { change (ref_run g m rv code (S k) (frame_in m w si) = Fail e f). rewrite (run_succ g). unfold ref_run. rewrite K2. exact K3. }
        rewrite (for_more hst (nested g) (g_keccak g) m rv code (is_dest code) (S k) _ _ X ltac:(discriminate) k' ltac:(lia)) in L2. discriminate.
      - assert (X : run_for hst (nested g) (g_keccak g) m rv code (is_dest code) (S k') (frame_in m w si) = Fail e f).
        { change (ref_run g m rv code (S k') (frame_in m w si) = Fail e f). rewrite (run_succ g). unfold ref_run. rewrite L2. exact L3. }
        rewrite (for_more hst (nested g) (g_keccak g) m rv code (is_dest code) (S k') _ _ X ltac:(discriminate) k ltac:(lia)) in K2. discriminate. }
    subst k'. rewrite K2 in L2. injection L2 as <-. subst w' w2.
    eexists _, _, _, _, _. split; [exact E|]. split; [exact E2|]. split; [intros N; contradiction|]. intros _.
    rewrite L4, L5, K5, L7, K7, L8, K8, L11, K11, L13, K13. repeat split.
    intros S1. rewrite S1 in K1. change (Z.to_nat 1) with 1%nat in K1. rewrite K14, L14 by lia. reflexivity.
Qed.

Theorem op_push0 v w rv code m si : at_op g v code m si 0x5F -> rev_ge rv Shanghai = true -> zlen (si_stack si) < 1024 -> 2 <= msg_gas m ->
  steps_to g v w rv code m si (running rv (si_pc si + 1) (msg_gas m - 2) (si_refunds si) (si_stack si ++ [0]) (whole_words (si_mem si)) (si_ret si)) w.
Proof. intros Ho Hr Hh Hm. apply (op_env g Hg v w rv code m si 0x5F 2 Shanghai 0); try assumption. cbn. intuition. Qed.
End Stack.

(** ** Memory *)
Definition mem_ok (mem : list Z) : Prop := Forall is_byte mem /\ exists k, zlen mem = 32 * k.
Lemma mem_ok_rel mem : mem_ok mem -> mem_rel mem (data_at mem) (zlen mem).
Proof. intros [B [k K]]. split; [reflexivity| |exact B|reflexivity]. rewrite K, words_mul. reflexivity. Qed.
Lemma rel_mem_ok mem f a : mem_rel mem f a -> mem_ok mem /\ zlen mem = a.
Proof. intros [R1 R2 R3 R4]. split; [|exact R1]. split; [exact R3|]. exists (words a). rewrite R1. exact R2. Qed.

Lemma written mem m' f size off bs : mem_rel m' f size -> (forall i, 0 <= i -> f i = write_bytes (data_at mem) off bs i) ->
  overwritten mem m' size off (zlen bs) (data_at bs).
Proof.
  intros [R1 R2 R3 R4] E. split; [exact R1|]. intros i Hi. rewrite <- R4, E by assumption. unfold write_bytes.
  destruct ((off <=? i) && (i <? off + zlen bs)) eqn:C; [|reflexivity].
  apply andb_true_iff in C. destruct C as [C1 C2]. apply Z.leb_le in C1. apply Z.ltb_lt in C2. rewrite data_at_nth by lia. reflexivity.
Qed.
Lemma over_bytes mem mem' size dst n b b' : (forall i, 0 <= i < n -> b i = b' i) -> overwritten mem mem' size dst n b -> overwritten mem mem' size dst n b'.
Proof.
  intros E [A B]. split; [exact A|]. intros i Hi. rewrite B by assumption.
  destruct ((dst <=? i) && (i <? dst + n)) eqn:C; [|reflexivity]. apply E. apply andb_true_iff in C. destruct C as [C1 C2]. apply Z.leb_le in C1. apply Z.ltb_lt in C2. lia.
Qed.
Lemma unwritten mem m' f size off n b : n <= 0 -> mem_rel m' f size -> (forall i, 0 <= i -> f i = data_at mem i) -> overwritten mem m' size off n b.
Proof.
  intros Hn [R1 R2 R3 R4] E. split; [exact R1|]. intros i Hi. rewrite <- R4, E by assumption.
  destruct (Z.leb_spec off i), (Z.ltb_spec i (off + n)); try reflexivity. lia.
Qed.

Theorem grow_exact mem off n : mem_ok mem -> 0 <= n -> (n <> 0 -> 0 <= off /\ off + n < 2 ^ 62) ->
  exists mem', mem_grow mem off n = Ok mem' /\ mem_ok mem' /\ overwritten mem mem' (expand (zlen mem) off n) 0 0 (fun _ => 0).
Proof.
  intros Hm Hn Ho. destruct (mem_grow_spec mem _ _ off n (mem_ok_rel mem Hm) Hn Ho) as (m' & E & R). exists m'. split; [exact E|].
  split; [eapply rel_mem_ok; exact R|]. eapply unwritten; [lia|exact R|reflexivity].
Qed.
Theorem get_span_exact mem off n : mem_ok mem -> 0 <= n -> (n <> 0 -> 0 <= off /\ off + n < 2 ^ 62) ->
  exists mem', mem_get_span false mem off n = Ok (data_bytes mem off n, mem') /\ mem_ok mem' /\ overwritten mem mem' (expand (zlen mem) off n) 0 0 (fun _ => 0).
Proof.
  intros Hm Hn Ho. destruct (mem_get_span_spec mem _ _ off n (mem_ok_rel mem Hm) Hn Ho) as (m' & E & R). exists m'.
  split; [rewrite data_bytes_read; exact E|].
  split; [eapply rel_mem_ok; exact R|]. eapply unwritten; [lia|exact R|reflexivity].
Qed.
Theorem write_to_exact mem off n : mem_ok mem -> 0 <= n -> (n <> 0 -> 0 <= off /\ off + n < 2 ^ 62) ->
  exists mem', mem_write_to false mem n off = Ok (data_bytes mem off n, mem') /\ mem_ok mem' /\ overwritten mem mem' (expand (zlen mem) off n) 0 0 (fun _ => 0).
Proof.
  intros Hm Hn Ho. destruct (mem_write_to_spec mem _ _ off n (mem_ok_rel mem Hm) Hn Ho) as (m' & E & R). exists m'.
  split; [rewrite data_bytes_read; exact E|].
  split; [eapply rel_mem_ok; exact R|]. eapply unwritten; [lia|exact R|reflexivity].
Qed.
Theorem read_from_exact mem buf off : mem_ok mem -> Forall is_byte buf -> (buf <> [] -> 0 <= off /\ off + zlen buf < 2 ^ 62) ->
  exists mem', mem_read_from false mem buf off = Ok mem' /\ mem_ok mem' /\ overwritten mem mem' (expand (zlen mem) off (zlen buf)) off (zlen buf) (data_at buf).
Proof.
  intros Hm Hb Ho. destruct (mem_read_from_spec mem _ _ buf off (mem_ok_rel mem Hm) Hb Ho) as (m' & E & R). exists m'. split; [exact E|].
  split; [eapply rel_mem_ok; exact R|]. eapply written; [exact R|reflexivity].
Qed.
Theorem read_from_with_size_exact mem buf off n : mem_ok mem -> Forall is_byte buf -> 0 <= n -> (n <> 0 -> 0 <= off /\ off + n < 2 ^ 62) ->
  exists mem', mem_read_from_with_size false mem buf off n = Ok mem' /\ mem_ok mem' /\ overwritten mem mem' (expand (zlen mem) off n) off n (data_at buf).
Proof.
  intros Hm Hb Hn Ho. destruct (mem_read_from_with_size_spec mem _ _ buf off n (mem_ok_rel mem Hm) Hb Hn Ho) as (m' & E & R). exists m'. split; [exact E|].
  split; [eapply rel_mem_ok; exact R|].
  pose proof (written mem m' _ _ off (data_bytes buf 0 n) R ltac:(reflexivity)) as X. rewrite data_bytes_zlen, Z.max_r in X by lia.
  eapply over_bytes; [|exact X]. intros i Hi. rewrite data_bytes_read, read_bytes_at by lia. reflexivity.
Qed.
Theorem copy_exact mem dst src n : mem_ok mem -> 0 <= n -> (n <> 0 -> 0 <= dst /\ dst + n < 2 ^ 62 /\ 0 <= src /\ src + n < 2 ^ 62) ->
  exists mem', mem_copy false mem dst src n = Ok mem' /\ mem_ok mem' /\
    overwritten mem mem' (expand (expand (zlen mem) src n) dst n) dst n (fun i => data_at mem (src + i)).
Proof.
  intros Hm Hn Ho. destruct (mem_copy_spec mem _ _ dst src n (mem_ok_rel mem Hm) Hn Ho) as (m' & E & R). exists m'. split; [exact E|].
  split; [eapply rel_mem_ok; exact R|].
  pose proof (written mem m' _ _ dst (read_bytes (data_at mem) src n) R ltac:(reflexivity)) as X. rewrite read_bytes_zlen, Z.max_r in X by lia.
  eapply over_bytes; [|exact X]. intros i Hi. rewrite read_bytes_at by lia. reflexivity.
Qed.

Theorem expansion_cost a off n gas :
  a = 32 * words a -> 0 <= a -> 0 <= off < 2 ^ 256 -> 0 <= n < 2 ^ 256 -> 0 <= gas -> gas + Gmem a < 2 ^ 54 ->
  exists c o k, memory_expansion_cost a off n = Ok (c, o, k) /\ 0 <= c < 2 ^ 63 /\ 0 <= o < 2 ^ 64 /\ 0 <= k < 2 ^ 64 /\
    (Gmem (expand a off n) - Gmem a <= gas -> c = Gmem (expand a off n) - Gmem a /\ k = n /\ (n <> 0 -> o = off)) /\
    (gas < Gmem (expand a off n) - Gmem a -> gas < c) /\
    (n = 0 -> c = 0).
Proof.
  intros A1 A2 A3 A4 A5 A6. destruct (memory_expansion_cost_spec a off n gas A1 A2 A3 A4 A5 A6) as (c & o & k & E & Hc & Ho & Hk & K1 & K2 & K3).
  exists c, o, k. split; [exact E|]. unfold kMaxGas in Hc. split; [lia|]. split; [exact Ho|]. split; [exact Hk|].
  split; [|split; assumption]. intros D. destruct (K1 D) as (X1 & X2 & X3). split; [exact X1|]. split; [exact X2|]. intros N. apply (X3 N).
Qed.

(** what MSTORE has written *)
Lemma data_bytes_ext d d' off off' n : 0 <= n -> (forall i, 0 <= i < n -> data_at d (off + i) = data_at d' (off' + i)) -> data_bytes d off n = data_bytes d' off' n.
Proof.
  intros Hn E. unfold data_bytes. apply map_ext_in. intros i Hi. apply in_seq in Hi. apply E. lia.
Qed.
Lemma be_word_bytes x (d : list Z) off : is_word x -> (forall i, 0 <= i < 32 -> data_at d (off + i) = (x / 256 ^ (31 - i)) mod 256) -> be (data_bytes d off 32) = x.
Proof.
  intros Hx E. assert (B : data_bytes d off 32 = be_bytes 32 x).
  { unfold data_bytes, be_bytes. apply map_ext_in. intros i Hi. apply in_seq in Hi. change (Z.to_nat 32) with 32%nat in Hi. rewrite E by lia.
    do 3 f_equal. lia. }
  rewrite B, be_be_bytes. change (256 ^ Z.of_nat 32) with (2 ^ 256). apply Z.mod_small. exact Hx.
Qed.

Section Roundtrip.
Context {W : Type}.
Variable g : setting W.
Hypothesis Hg : setting_ok g.

Lemma grown_within mem off n : 0 <= n -> (n <> 0 -> off + n <= zlen mem) -> (exists k, zlen mem = 32 * k) -> grown mem off n = zlen mem.
Proof.
  intros Hn Ho [k K]. unfold grown, expand. rewrite K, words_mul. destruct (Z.eqb_spec n 0); [reflexivity|]. specialize (Ho n0). rewrite K in Ho.
  apply Z.max_l. apply words_le in Ho. rewrite words_mul in Ho. lia.
Qed.

(** MSTORE of [x] at [off], and any MLOAD later on in a frame with the memory it has left *)
Theorem store_load v w rv code m si rest off x so w' :
  at_op g v code m si 0x52 -> si_stack si = rest ++ [x; off] -> steps_to g v w rv code m si so w' -> so_step so = STEP_RUNNING ->
  forall v2 w2 rv2 code2 m2 si2 rest2 off2,
    at_op g v2 code2 m2 si2 0x51 -> si_mem si2 = so_mem so -> si_stack si2 = rest2 ++ [off2] -> 3 <= msg_gas m2 ->
    (off2 = off ->
       steps_to g v2 w2 rv2 code2 m2 si2 (running rv2 (si_pc si2 + 1) (msg_gas m2 - 3) (si_refunds si2) (rest2 ++ [x]) (so_mem so) (si_ret si2)) w2) /\
    (off2 + 32 <= off \/ off + 32 <= off2 -> off2 + 32 <= zlen (so_mem so) ->
       steps_to g v2 w2 rv2 code2 m2 si2 (running rv2 (si_pc si2 + 1) (msg_gas m2 - 3) (si_refunds si2) (rest2 ++ [be (data_bytes (si_mem si) off2 32)]) (so_mem so) (si_ret si2)) w2).
Proof.
  intros Ho Hst Hs Hr v2 w2 rv2 code2 m2 si2 rest2 off2 Ho2 Hm2 Hst2 Hg2.
  pose proof (op_mstore g Hg v w rv code m si rest off x Ho Hst) as [S1 S2].
  assert (Hw : Forall is_word (si_stack si)) by apply (sk_words _ _ _ (at_args _ _ _ _ _ _ Ho)).
  rewrite Hst in Hw. apply Forall_app in Hw. destruct Hw as [_ Hw]. inversion Hw as [|? ? Hx Hw']; subst. inversion Hw' as [|? ? Hoff _]; subst.
  destruct (Z_le_dec (3 + growth_cost (si_mem si) off 32) (msg_gas m)) as [D|D].
  2:{ destruct (S2 ltac:(lia)) as [so' [F G]]. destruct (steps_once g v w rv code m si so w' so' w Hs F) as [-> _]. rewrite (fld_step _ _ _ _ G) in Hr. discriminate. }
  destruct (S1 D) as (mem' & F & [O1 O2]). destruct (steps_once g v w rv code m si so w' _ _ Hs F) as [Eso _]. clear S1 S2.
  assert (Em : so_mem so = mem') by (rewrite <- Eso; reflexivity). clear Eso F. rewrite Em in *.
  assert (Kk : exists k, zlen mem' = 32 * k).
  { rewrite O1. exists (words (grown (si_mem si) off 32)). unfold grown. apply expand_words. rewrite words_mul. reflexivity. }
  assert (Hin : off + 32 <= zlen mem').
  { rewrite O1. unfold grown. apply expand_end. discriminate. }
  assert (Hw2 : Forall is_word (si_stack si2)) by apply (sk_words _ _ _ (at_args _ _ _ _ _ _ Ho2)).
  rewrite Hst2 in Hw2. apply Forall_app in Hw2. destruct Hw2 as [_ Hw2]. inversion Hw2 as [|? ? Hoff2 _]; subst. clear Hw Hw' Hw2.
  unfold is_word in Hoff, Hoff2.
  assert (Load : off2 + 32 <= zlen (si_mem si2) ->
     steps_to g v2 w2 rv2 code2 m2 si2 (running rv2 (si_pc si2 + 1) (msg_gas m2 - 3) (si_refunds si2) (rest2 ++ [be (data_bytes (si_mem si2) off2 32)]) (si_mem si2) (si_ret si2)) w2).
  { intros Hin2. pose proof (op_mload g Hg v2 w2 rv2 code2 m2 si2 rest2 off2 Ho2 Hst2) as [L1 _].
    assert (G2 : grown (si_mem si2) off2 32 = zlen (si_mem si2)) by (apply grown_within; [lia|intros _; lia|exact Kk]).
    assert (C2 : growth_cost (si_mem si2) off2 32 = 0) by (unfold growth_cost; rewrite G2; lia).
    rewrite C2 in L1. destruct (L1 ltac:(lia)) as (mem2 & Q1 & [Q2 Q3]).
    assert (mem2 = si_mem si2) as ->.
    { apply list_data_ext; [lia|]. intros i Hi. rewrite Q3 by lia. destruct (Z.leb_spec 0 i), (Z.ltb_spec i (0 + 0)); try lia; reflexivity. }
    exact Q1. }
  split.
  - intros ->. specialize (Load ltac:(lia)). rewrite (be_word_bytes x) in Load; [exact Load|exact Hx|].
    intros i Hi. rewrite O2 by lia. destruct (Z.leb_spec off (off + i)), (Z.ltb_spec (off + i) (off + 32)); try lia. cbn [andb]. do 3 f_equal. lia.
  - intros Hd Hl. specialize (Load ltac:(lia)).
    replace (data_bytes (si_mem si) off2 32) with (data_bytes (si_mem si2) off2 32); [exact Load|].
    apply data_bytes_ext; [lia|]. intros i Hi. rewrite O2 by lia.
    destruct (Z.leb_spec off (off2 + i)), (Z.ltb_spec (off2 + i) (off + 32)); try lia; reflexivity.
Qed.

(** memory growth is paid for *)
Theorem run_memory v w rv code m n so w' : reach g v -> exec_ok (g_code_of g) code m -> observed g v w rv code m n so w' -> so_step so = STEP_RUNNING ->
  exists k, zlen (so_mem so) = 32 * k /\ 3 * k + k * k / 512 <= msg_gas m - so_gas so.
Proof.
  intros Hv He Ho Hr. destruct (observed_spent g Hg v w rv code m n so w' Hv He Ho Hr) as (_ & _ & _ & [k K] & C & _). exists k. split; [exact K|].
  unfold Gmem in C. rewrite K, words_mul in C. lia.
Qed.
Theorem step_memory v w rv code m si so w' v' : reach g v -> exec_ok (g_code_of g) code m -> step_ok code m si -> si_status si = STEP_RUNNING -> 0 <= msg_gas m ->
  StepN g v w rv code m si = Ok (so, w', v') ->
  (exists k, zlen (so_mem so) = 32 * k) /\ zlen (si_mem si) <= zlen (so_mem so) /\
  (let before := words (zlen (si_mem si)) in let after := words (zlen (so_mem so)) in
   (3 * after + after * after / 512) - (3 * before + before * before / 512) <= msg_gas m - so_gas so).
Proof.
  intros Hv He Hs Hr Hgas E. destruct (stepn_spent g Hg v w rv code m si so w' v' Hv He Hs Hr Hgas E) as [_ _ _ _ A B C _].
  split; [exact A|]. split; [exact B|]. unfold Gmem in C. cbv zeta. lia.
Qed.
End Roundtrip.
