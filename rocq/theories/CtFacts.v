(** The conformance testing targets make the steps of the EVM. *)
From Verif Require Sim.
From Verif Require Import Base Host Uint256 SpecEvm SpecCall SpecVm ArithFacts MemFacts JumpFacts SpecFacts FrameFacts SpecStep StepFacts VmFacts Vm Client GoAdapter ClientFacts RunInv LfvmCode Lfvm LfvmSim LfvmOps LfvmConv LfvmExec LfvmStep LfvmRun SpecLfvm Ct SpecCt CtMap.
From Coq Require Import Lia ZArith List Bool.
Import ListNotations.
Open Scope Z_scope.

(** the state [s] describes the frame [f]; behind the code, positions may differ *)
Record describes {W} (s : ct_state W) (f : frame W) : Prop := mkDescribes {
  ds_pc : ct_pc s = Z.min (f_pc f) (zlen (ct_code s));
  ds_gas : ct_gas s = f_gas f;
  ds_stack : rev (ct_stack s) = f_stack f;
  ds_active : f_active f = 32 * words (zlen (ct_mem s));
  ds_mem : forall a, 0 <= a -> f_mem f a = data_at (ct_mem s) a;
  ds_ret : ct_last s = f_ret f;
  ds_refund : ct_refund s = f_refund f;
  ds_world : ct_world s = f_world f;
}.
Lemma frame_of_describes {W} (s : ct_state W) : at_instruction s -> describes s (frame_of s).
Proof. intros h. split; try reflexivity. cbn [frame_of f_pc]. destruct h as [h|[_ h]]; lia. Qed.

Lemma words_words n : words (32 * words n) = words n.
Proof. unfold words. rewrite Z.add_comm, (Z.mul_comm 32), Z.div_add by lia. reflexivity. Qed.
Lemma push_rev (l : list Z) acc : fold_left (fun acc v => v :: acc) l acc = rev l ++ acc.
Proof. revert acc. induction l as [|x l ih]; intros acc; [reflexivity|]. cbn [fold_left rev]. rewrite ih, <- app_assoc. reflexivity. Qed.
Lemma store_read {W} (f : frame W) c : R f c -> c_store c = read_bytes (f_mem f) 0 (f_active f).
Proof.
  intros h. pose proof (zlen_nonneg (c_store c)). apply list_data_ext; [rewrite read_bytes_zlen, (r_len _ _ h); rewrite (r_len _ _ h) in *; lia|].
  intros i hi. rewrite read_bytes_at by (rewrite <- (r_len _ _ h); lia). symmetry. apply (r_mem _ _ h). lia.
Qed.

Lemma gas_irrelevant {W} (H : host W) call keccak m rv code vd g n f :
  SpecEvm.run_for H call keccak (with_msg_gas g m) rv code vd n f = SpecEvm.run_for H call keccak m rv code vd n f.
Proof. destruct m. reflexivity. Qed.
Lemma runs_ext {W} (H : host W) call1 call2 keccak m rv code n : (forall w m, call1 w m = call2 w m) -> forall f,
  SpecEvm.run_for H call1 keccak m rv code (is_dest code) n f = SpecEvm.run_for H call2 keccak m rv code (is_dest code) n f.
Proof.
  intros h. induction n as [|n ih]; intros f; [reflexivity|]. cbn [SpecEvm.run_for]. rewrite (step_ext H keccak m rv code (is_dest code) call1 call2 f) by (intros; apply h).
  destruct (SpecEvm.step _ _ _ _ _ _ _ f); try reflexivity. apply ih.
Qed.

Section Lfvm.
Context {W : Type}.
Variable rc : run_context W.
Variable tx : tx_context.
Variable Call : W -> go_kind -> call_params -> option call_result * W.
Variable keccak : list Z -> Z.
Variable hash : list Z -> Z.

Section One.
Variable s : ct_state W.
Variable rv : revision.
Hypothesis Henv : env_ok rc tx Call keccak 0.
Hypothesis Hok : ct_ok s.
Hypothesis Hrev : In (ct_revision s, rv) revisions.
Notation p := (ToVmParameters hash s).
Notation code := (ct_code s).
Notation frame := (frame W).
Notation ctx := (ctx W).
Notation step := (SpecEvm.step (go_host rc tx) (callF Call) keccak (message_of p) rv code (is_dest code)).
Notation run_for := (SpecEvm.run_for (go_host rc tx) (callF Call) keccak (message_of p) rv code (is_dest code)).

Variable lc : lcode.
Hypothesis Hloc : located false code lc 0 0.
Notation lstep := (lstep rc tx Call keccak p lc).
Notation rounds := (ct_rounds rc tx Call keccak p lc).
Notation at_pos := (at_pos p false lc).
Notation ready := (ready p false lc).

Lemma p_msg : msg_ok (message_of p).
Proof.
  destruct Hok. assert (h : 0 <= Gmem (zlen (ct_mem s))).
  { unfold Gmem. pose proof (zlen_nonneg (ct_mem s)). assert (0 <= words (zlen (ct_mem s))) by (unfold words; apply Z.div_pos; lia). assert (0 <= words (zlen (ct_mem s)) * words (zlen (ct_mem s)) / 512) by (apply Z.div_pos; nia). lia. }
  split; cbn [message_of msg_flags msg_depth msg_gas msg_recipient msg_sender msg_input msg_value ToVmParameters p_static p_depth p_gas p_recipient p_sender p_input p_value]; try assumption; try lia.
  destruct (ct_readonly s); [unfold EVMC_STATIC|]; lia.
Qed.
Lemma p_size : zlen (p_code p) <= 65536. Proof. pose proof (ctk_size s Hok). cbn [ToVmParameters p_code]. lia. Qed.
Lemma p_rev : toEvmcRevision (p_revision p) = Some rv. Proof. apply revisions_toEvmc. exact Hrev. Qed.
Lemma p_depth_le : p_depth p <= 1024. Proof. cbn. lia. Qed.

Lemma started i : instr_start code i -> i < zlen code -> exists q, located false code lc i q.
Proof.
  induction 1 as [|i hs ih hlt]; intros h; [exists 0; exact Hloc|]. pose proof (start_nonneg code i hs) as hi. pose proof (ctk_size s Hok) as hz. pose proof (ctk_code s Hok) as hc.
  pose proof (push_len_nonneg code i) as hp. destruct (ih ltac:(lia)) as [q hq].
  destruct (Z.eq_dec (code_at code i) 0x5B) as [e|e].
  - destruct (located_jumpdest false code lc i q hq ltac:(lia) ltac:(lia) e) as (_ & _ & _ & k & _). rewrite e. exists (i + 1). change (push_len 0x5B) with 0. rewrite Z.add_0_r. exact k.
  - destruct (located_plain false code lc i q hq ltac:(lia) ltac:(lia) e eq_refl) as (_ & _ & k). eexists. exact k.
Qed.

Lemma one_step (f : frame) c : R f c -> fine f -> zlen (f_stack f) <= 1024 -> ready (f_pc f) (c_pc c) -> out_ok at_pos (step f) (lstep c).
Proof.
  destruct Henv as [e1 e2 e3 e4 e5 e6 e7]. intros hR hF hst hr.
  exact (step_sim rc tx Call keccak p false lc rv p_rev e1 e2 p_msg e3 (ctk_code s Hok) p_size Hloc e7 e4 e6 e5 p_depth_le f c hR hF hst hr (fun _ => eq_refl)).
Qed.
Lemma one_fine (f f' : frame) c : R f c -> fine f -> step f = Next f' -> fine f' /\ zlen (f_stack f') <= 1024.
Proof.
  destruct Henv as [e1 e2 e3 e4 e5 e6 e7]. intros hR hF h. split.
  - exact (proj1 (step_fine rc tx Call keccak p rv p_msg (ctk_code s Hok) e5 f f' c hR hF h)).
  - exact (step_height rc tx Call keccak p rv (ctk_code s Hok) f f' h).
Qed.

Lemma ready_dec i q : at_pos i q -> ready i q \/ ~ ready i q.
Proof.
  intros [hl|hd]; [|left; left; exact hd]. destruct (Z_lt_ge_dec i (zlen code)) as [hin|hout]; [|left; right; split; [exact hl|cbn; lia]].
  destruct (Z.eq_dec (code_at code i) 0x5B) as [hb|hb]; [|left; right; split; auto].
  destruct (Z.eq_dec q i) as [->|hne].
  - left. left. pose proof (ctk_size s Hok). destruct (located_jumpdest false code lc i i hl hin ltac:(lia) hb) as (_ & k2 & _ & k4 & _).
    split; [reflexivity|]. split; [exact hin|]. split; [exact hb|]. split; [|exact k4]. apply (slice_znth _ _ _ _ _ (lo_i _ _ _ _ _ hl) k2).
  - right. intros [(h & _)|[_ h]]; [contradiction|]. exact (h hin hb).
Qed.

Lemma rounds_ok n : forall (f : frame) c, R f c -> fine f -> zlen (f_stack f) <= 1024 -> at_pos (f_pc f) (c_pc c) ->
  exists k, (k <= n)%nat /\ (n <= 2 * k + 1)%nat /\ (ready (f_pc f) (c_pc c) -> (n <= 2 * k)%nat) /\ out_ok at_pos (run_for k f) (rounds n c) /\
    forall f', run_for k f = Next f' -> fine f' /\ zlen (f_stack f') <= 1024.
Proof.
  induction n as [|n IH]; intros f c hR hF hst hpos.
  - exists 0%nat. split; [lia|]. split; [lia|]. split; [lia|]. cbn [SpecEvm.run_for ct_rounds out_ok]. split; [eauto|]. intros f' h. injection h as <-. auto.
  - assert (main : ready (f_pc f) (c_pc c) -> exists k, (k <= S n)%nat /\ (S n <= 2 * k)%nat /\ out_ok at_pos (run_for k f) (rounds (S n) c) /\ forall f', run_for k f = Next f' -> fine f' /\ zlen (f_stack f') <= 1024).
    { intros hr. pose proof (one_step f c hR hF hst hr) as X. cbn [ct_rounds]. destruct (step f) as [f1|h out f1|e f1] eqn:es; cbn [out_ok] in X.
      - destruct X as (c1 & -> & hR1 & hp1). destruct (one_fine f f1 c hR hF es) as [hF1 hst1]. destruct (IH f1 c1 hR1 hF1 hst1 hp1) as (k & k1 & k2 & _ & k3 & k4).
        exists (S k). split; [lia|]. split; [lia|]. cbn [SpecEvm.run_for]. rewrite es. auto.
      - destruct X as (st & c1 & -> & X). exists (S n). split; [lia|]. split; [lia|]. cbn [SpecEvm.run_for]. rewrite es. split; [|discriminate]. cbn [out_ok]. eauto.
      - destruct X as (c1 & ->). exists (S n). split; [lia|]. split; [lia|]. cbn [SpecEvm.run_for]. rewrite es. split; [|discriminate]. cbn [out_ok]. eauto. }
    destruct (ready_dec _ _ hpos) as [hr|hnr].
    + destruct (main hr) as (k & k1 & k2 & k3 & k4). exists k. split; [lia|]. split; [lia|]. auto.
    + destruct (settle rc tx Call keccak p false lc p_size f c hR hF hst hpos) as [hr|(c' & e & hR' & hr)]; [contradiction|].
      clear main. assert (hpos' : at_pos (f_pc f) (c_pc c')) by (destruct hr as [hr|[hr _]]; [right|left]; exact hr).
      destruct (IH f c' hR' hF hst hpos') as (k & k1 & k2 & k3 & k4 & k5). specialize (k3 hr). exists k. split; [lia|]. split; [lia|]. split; [contradiction|].
      cbn [ct_rounds]. rewrite e. auto.
Qed.

(** ** Positions *)
Variable m : pcMap.
Hypothesis Hmap : genPcMap code = Ok m.
Hypothesis Hconv : convert false code = Ok lc.
Lemma map_facts : zlen (evmToLfvm m) = zlen code + 1 /\ znth (evmToLfvm m) (zlen code) = Some (zlen lc) /\ znth (lfvmToEvm m) (zlen lc) = Some (zlen code) /\
  forall i q, located false code lc i q -> i < zlen code -> znth (evmToLfvm m) i = Some (target code i q) /\
    (forall op a, znth lc (target code i q) = Some (op, a) -> op <> L_JUMP_TO -> znth (lfvmToEvm m) (target code i q) = Some i) /\
    (forall k a, 0 <= k -> znth lc k = Some (L_JUMP_TO, a) -> znth (lfvmToEvm m) k = Some a).
Proof.
  destruct (genPcMap_ok code (ctk_size s Hok)) as (lc' & m' & e1 & e2 & _ & h1 & h2 & h3 & h4). rewrite Hconv in e1. injection e1 as <-. rewrite Hmap in e2. injection e2 as <-.
  split; [exact h1|]. split; [exact h2|]. split; [exact h3|]. intros i q hl hi. destruct (lo_pos _ _ _ _ _ hl) as [n hn]. exact (h4 n i q hn hi).
Qed.
Lemma to_evm i q : at_pos i q -> znth (lfvmToEvm m) q = Some (Z.min i (zlen code)).
Proof.
  destruct map_facts as (_ & _ & h3 & h4). pose proof (ctk_size s Hok) as hz.
  assert (dest : forall i, i < zlen code -> code_at code i = 0x5B -> znth lc i = Some (0x5B, 0) -> (exists q, located false code lc i q) -> znth (lfvmToEvm m) i = Some (Z.min i (zlen code))).
  { intros i0 hi hb hn [q0 hl]. destruct (h4 i0 q0 hl hi) as (_ & g & _). assert (et : target code i0 q0 = i0) by (unfold target; rewrite hb; reflexivity). rewrite et in g.
    rewrite (g _ _ hn) by discriminate. f_equal. lia. }
  intros [hl|hd].
  - destruct (Z_lt_ge_dec i (zlen code)) as [hin|hout].
    + destruct (Z.eq_dec (code_at code i) 0x5B) as [hb|hb].
      * destruct (located_jumpdest false code lc i q hl hin ltac:(lia) hb) as (k1 & k2 & _). pose proof (lo_le _ _ _ _ _ hl). destruct (Z.eq_dec q i) as [->|hne].
        -- apply dest; [exact hin|exact hb| |eauto]. apply (slice_znth _ _ _ _ _ (lo_i _ _ _ _ _ hl) k2).
        -- specialize (k1 ltac:(lia)). destruct (slice_znth _ _ _ _ _ (lo_q _ _ _ _ _ hl) k1) as [k _]. destruct (h4 i q hl hin) as (_ & _ & g). rewrite (g q i (lo_q _ _ _ _ _ hl) k). f_equal. lia.
      * destruct (located_plain false code lc i q hl hin ltac:(lia) hb eq_refl) as (k1 & _ & _). destruct (h4 i q hl hin) as (_ & g & _).
        assert (et : target code i q = q) by (unfold target; destruct (Z.eqb_spec (code_at code i) 0x5B); [contradiction|reflexivity]). rewrite et in g.
        assert (hh : exists op a t, entries code i (code_at code i) = (op, a) :: t /\ op <> L_JUMP_TO).
        { assert (hby : is_byte (code_at code i)) by (apply data_at_byte; exact (ctk_code s Hok)).
          assert (hne : code_at code i <> L_JUMP_TO) by (unfold is_byte in hby; unfold L_JUMP_TO; lia).
          pose proof (proj1 (entries_zlen code i)) as hez. unfold entries in *. destruct (_ =? 0x58); [eexists _, _, _; split; [reflexivity|discriminate]|].
          destruct (_ && _); [|eexists _, _, _; split; [reflexivity|exact hne]]. destruct (pairs _) as [|a t]; [cbn in hez; lia|]. eexists _, _, _; split; [reflexivity|exact hne]. }
        destruct hh as (op & a & t & eh & hne). rewrite eh in k1. destruct (slice_znth _ _ _ _ _ (lo_q _ _ _ _ _ hl) k1) as [k _]. rewrite (g op a k hne). f_equal. lia.
    + rewrite (located_end false code lc i q hl ltac:(lia)). rewrite h3. f_equal. lia.
  - destruct hd as (-> & hin & hb & hn & _). apply dest; try assumption.
    assert (hi : 0 <= i) by (unfold znth in hn; destruct (Z.ltb_spec i 0); [discriminate|assumption]).
    apply (dest_at false code lc ltac:(lia) i Hloc). apply (proj1 (dest_iff false code lc ltac:(lia) i 0 Hloc hi)). apply slice_one; assumption.
Qed.
Lemma at_start i q : at_pos i q -> instr_start code i.
Proof.
  intros [hl|hd].
  - destruct (lo_pos _ _ _ _ _ hl) as [n hn]. change (p_code p) with code in hn. pose proof (pos_at_ok false code n) as [_ k _ _ _]. rewrite hn in k. exact k.
  - destruct hd as (_ & hin & _ & hn & _). pose proof (ctk_size s Hok).
    assert (hi : 0 <= i) by (unfold znth in hn; destruct (Z.ltb_spec i 0); [discriminate|assumption]).
    apply (proj1 (dest_iff false code lc ltac:(lia) i 0 Hloc hi) (slice_one _ _ _ hi hn)).
Qed.
Lemma to_lfvm : at_instruction s -> exists q, znth (evmToLfvm m) (ct_pc s) = Some q /\ (ct_pc s < zlen code -> ready (ct_pc s) q) /\ (ct_pc s = zlen code -> q = zlen lc).
Proof.
  destruct map_facts as (_ & h2 & _ & h4). intros [h|[h1 hin]].
  - rewrite h. exists (zlen lc). split; [exact h2|]. split; [lia|reflexivity].
  - destruct (started _ h1 hin) as [q hq]. destruct (h4 _ q hq hin) as (g & _ & _). exists (target code (ct_pc s) q). split; [exact g|]. split; [intros _|lia].
    unfold target. destruct (Z.eqb_spec (code_at code (ct_pc s)) 0x5B) as [hb|hb]; [|right; split; auto].
    left. apply (dest_pos p false lc p_size Hloc). pose proof (start_nonneg code _ h1). repeat split; assumption.
Qed.

(** ** From states to contexts and back *)
Lemma end_step (f : frame) : zlen code <= f_pc f -> 0 <= f_gas f -> zlen (f_stack f) <= 1024 ->
  exists f', step f = Halt Stopped [] f' /\ f_gas f' = f_gas f /\ f_refund f' = f_refund f /\ f_world f' = f_world f.
Proof.
  intros hpc hg hst. unfold SpecEvm.step. assert (e0 : code_at code (f_pc f) = 0) by (unfold code_at; apply data_at_out; lia). rewrite e0. cbn [instruction in_since in_stateful andb in_args in_results in_fee].
  replace (rev_ge rv Istanbul) with true by (destruct rv; reflexivity). cbn [negb]. pose proof (zlen_nonneg (f_stack f)). destruct (Z.ltb_spec (zlen (f_stack f)) 0); [lia|]. destruct (Z.ltb_spec 1024 (zlen (f_stack f) - 0 + 0)); [lia|].
  unfold charge. destruct (Z.ltb_spec (f_gas f) 0); [lia|]. eexists. split; [reflexivity|]. cbn [f_gas with_pc with_gas f_refund f_world]. rewrite Z.sub_0_r. auto.
Qed.
Lemma ended_run n (f : frame) : zlen code <= f_pc f -> 0 <= f_gas f -> zlen (f_stack f) <= 1024 ->
  run_for n f = match n with O => Next f | S _ => step f end.
Proof. intros h1 h2 h3. destruct n; [reflexivity|]. cbn [SpecEvm.run_for]. destruct (end_step f h1 h2 h3) as (f' & -> & _). reflexivity. Qed.

Definition context (pc : Z) : ctx :=
  mkCtx pc (ct_gas s) (ct_refund s) (rev (ct_stack s)) (fst (convertCtMemory (ct_mem s))) (snd (convertCtMemory (ct_mem s))) (ct_last s) (ct_world s).
Lemma mem_len : 0 <= zlen (ct_mem s) < 2 ^ 60.
Proof.
  pose proof (ctk_mem_price s Hok) as h. pose proof (ctk_gas s Hok). pose proof (zlen_nonneg (ct_mem s)) as hm. split; [exact hm|]. unfold Gmem in h.
  assert (hw : 0 <= words (zlen (ct_mem s)) /\ zlen (ct_mem s) <= 32 * words (zlen (ct_mem s))).
  { unfold words. split; [apply Z.div_pos; lia|]. pose proof (Z.div_mod (zlen (ct_mem s) + 31) 32 ltac:(lia)). pose proof (Z.mod_pos_bound (zlen (ct_mem s) + 31) 32 ltac:(lia)). lia. }
  assert (0 <= words (zlen (ct_mem s)) * words (zlen (ct_mem s)) / 512) by (apply Z.div_pos; nia). lia.
Qed.
Lemma context_R (f : frame) pc : describes s f -> R f (context pc).
Proof.
  intros [d1 d2 d3 d4 d5 d6 d7 d8]. pose proof mem_len as hm.
  assert (hw : 0 <= words (zlen (ct_mem s)) /\ zlen (ct_mem s) <= 32 * words (zlen (ct_mem s))).
  { unfold words. split; [apply Z.div_pos; lia|]. pose proof (Z.div_mod (zlen (ct_mem s) + 31) 32 ltac:(lia)). pose proof (Z.mod_pos_bound (zlen (ct_mem s) + 31) 32 ltac:(lia)). lia. }
  assert (es : sizeInWords (zlen (ct_mem s)) = words (zlen (ct_mem s))) by (apply sizeInWords_words; lia).
  split; cbn [context c_gas c_refund c_stack c_ret c_world c_store c_cost convertCtMemory fst snd]; try assumption; rewrite ?es.
  - rewrite zlen_app, zlen_zeros, d4. lia.
  - rewrite d4. unfold Gmem. rewrite words_words. lia.
  - rewrite d4, words_words. reflexivity.
  - intros a ha. rewrite d5 by exact ha. destruct (Z_lt_ge_dec a (zlen (ct_mem s))).
    + rewrite data_at_app by lia. destruct (Z.ltb_spec a (zlen (ct_mem s))); [reflexivity|lia].
    + rewrite data_at_app by lia. destruct (Z.ltb_spec a (zlen (ct_mem s))); [lia|]. rewrite data_at_zeros. apply data_at_out. lia.
  - apply Forall_app. split; [exact (ctk_mem s Hok)|]. apply zeros_byte.
  - rewrite <- d3. apply Forall_rev. exact (ctk_words s Hok).
  - rewrite <- d6. exact (ctk_last s Hok).
  - rewrite <- d6. exact (ctk_last_len s Hok).
Qed.
Lemma context_fine (f : frame) : describes s f -> fine f /\ zlen (f_stack f) <= 1024.
Proof.
  intros [d1 d2 d3 d4 d5 d6 d7 d8]. destruct Hok. split; [split|].
  - rewrite <- d2. assumption.
  - rewrite <- d2, d4. unfold Gmem. rewrite words_words. assumption.
  - rewrite <- d2, <- d7. assumption.
  - rewrite <- d3. unfold zlen. rewrite rev_length. assumption.
Qed.

Definition resumable (i q : Z) : Prop := znth (lfvmToEvm m) q = Some (Z.min i (zlen code)) /\ (zlen code <= i \/ instr_start code i /\ i < zlen code).
Lemma rounds_from (n : nat) (f : frame) : describes s f -> at_instruction s -> exists q k, znth (evmToLfvm m) (ct_pc s) = Some q /\
  (k <= n)%nat /\ (n <= 2 * k)%nat /\ out_ok resumable (run_for k f) (rounds n (context q)) /\ forall f', run_for k f = Next f' -> fine f' /\ zlen (f_stack f') <= 1024.
Proof.
  intros hd ha. pose proof (ctk_size s Hok) as hz. destruct (to_lfvm ha) as (q & e & h1 & h2). exists q. destruct (context_fine f hd) as [hF hst]. pose proof (context_R f q hd) as hR. pose proof (ds_pc s f hd) as hpc.
  destruct (Z_lt_ge_dec (f_pc f) (zlen code)) as [hin|hout].
  - rewrite Z.min_l in hpc by lia. specialize (h1 ltac:(lia)). rewrite hpc in h1. assert (hp : at_pos (f_pc f) q) by (destruct h1 as [h1|[h1 _]]; [right|left]; exact h1).
    destruct (rounds_ok n f (context q) hR hF hst hp) as (k & k1 & k2 & k3 & k4 & k5). exists k. split; [exact e|]. split; [exact k1|]. split; [exact (k3 h1)|]. split; [|exact k5].
    destruct (run_for k f) as [f1|h out f1|e1 f1]; cbn [out_ok] in *; try exact k4. destruct k4 as (c1 & e1 & hR1 & hp1). exists c1. split; [exact e1|]. split; [exact hR1|].
    split; [apply to_evm; exact hp1|]. destruct (Z_lt_ge_dec (f_pc f1) (zlen code)); [right; split; [exact (at_start _ _ hp1)|assumption]|left; lia].
  - rewrite Z.min_r in hpc by lia. specialize (h2 hpc). subst q. exists n. split; [exact e|]. split; [lia|]. split; [lia|]. rewrite ended_run by (try lia; exact (fn_gas _ hF)). destruct n as [|n].
    + cbn [ct_rounds out_ok]. split; [|intros f' h; injection h as <-; auto]. exists (context (zlen lc)). split; [reflexivity|]. split; [exact hR|]. split; [|left; lia].
      cbn [context c_pc]. destruct map_facts as (_ & _ & h3 & _). rewrite h3. f_equal. lia.
    + destruct (end_step f ltac:(lia) (fn_gas _ hF) hst) as (f1 & es & g1 & g2 & g3). rewrite es. split; [|discriminate]. cbn [ct_rounds]. unfold Lfvm.lstep. cbn [context c_pc].
      destruct (Z.leb_spec (zlen lc) (zlen lc)); [|lia]. exists StStopped, (context (zlen lc)). split; [reflexivity|]. split; [split; [left|]; reflexivity|].
      cbn [context c_gas c_refund c_world]. destruct hd. rewrite g1, g2, g3. auto.
Qed.

Theorem stepN_from (n : Z) (f : frame) : describes s f -> at_instruction s -> exists s' k, LfvmStepN rc tx Call keccak hash s n = Ok (s', None) /\
  (k <= Z.to_nat n)%nat /\ (Z.to_nat n <= 2 * k)%nat /\ same_state s' (ct_after s (run_for k f)) /\
  match run_for k f with Next f' => describes s' f' /\ ct_ok s' /\ at_instruction s' /\ (forall o, ct_after s' o = ct_after s o) | _ => ct_stat s' <> CtRunning end /\
  ct_revision s' = ct_revision s /\ ct_code s' = code /\ message_of (ToVmParameters hash s') = with_msg_gas (ct_gas s') (message_of p).
Proof.
  intros hd ha. destruct (rounds_from (Z.to_nat n) f hd ha) as (q & k & e & k1 & k2 & k3 & k4). unfold LfvmStepN. change (p_revision p) with (ct_revision s). change (p_code p) with code.
  assert (h5 : (5 <? ct_revision s) = false).
  { unfold revisions in Hrev. cbn in Hrev. repeat (destruct Hrev as [h|?Hrev0]; [injection h as <- _; reflexivity|clear Hrev; rename Hrev0 into Hrev]). contradiction. }
  rewrite h5, (ctk_running s Hok), Hconv, Hmap. cbn [rbind]. rewrite e. cbn [rbind]. unfold convertCtStack. pose proof (ctk_height s Hok) as hh. destruct (Z.ltb_spec 1024 (zlen (ct_stack s))); [lia|]. cbn [rbind].
  rewrite push_rev, app_nil_r. rewrite (surjective_pairing (convertCtMemory (ct_mem s))). cbv beta iota zeta. change (p_gas p) with (ct_gas s). fold (context q).
  destruct (run_for k f) as [f1|h out f1|e1 f1] eqn:er; cbn [out_ok] in k3.
  - destruct k3 as (c1 & -> & hR & hp & hat). destruct (k4 f1 eq_refl) as [hF hst]. cbn [rbind]. rewrite hp. cbn [rbind]. eexists. exists k. split; [reflexivity|]. split; [exact k1|]. split; [exact k2|].
    rewrite er. cbn [ct_after]. pose proof (store_read f1 c1 hR) as hsr. unfold convertLfvmStack.
    split.
    { unfold same_state, ct_update. cbn [ct_stat ct_code ct_revision ct_readonly ct_pc ct_gas ct_refund ct_stack ct_mem ct_self ct_caller ct_value ct_calldata ct_last ct_ret ct_world].
      destruct hR. split; [reflexivity|]. intros _. repeat (split; [first [reflexivity|assumption]|]). split; [|split; [congruence|split; assumption]].
      destruct (Z.min_spec (f_pc f1) (zlen code)) as [[? ->]|[? ->]]; [left; reflexivity|right; lia]. }
    split; [|split; [reflexivity|split; reflexivity]].
    assert (hact : zlen (c_store c1) = 32 * words (zlen (c_store c1))) by (rewrite (r_len _ _ hR); exact (r_act _ _ hR)).
    split; [|split; [|split; [|intros [|[]|]; reflexivity]]].
    + destruct hR. split; unfold ct_update; cbn [ct_pc ct_code ct_gas ct_stack ct_mem ct_last ct_refund ct_world]; try assumption; try reflexivity.
      * rewrite rev_involutive. assumption.
      * rewrite <- hact. congruence.
    + destruct hR, hF. destruct Hok. split; unfold ct_update; cbn [ct_stat ct_code ct_revision ct_readonly ct_pc ct_gas ct_refund ct_stack ct_mem ct_self ct_caller ct_value ct_calldata ct_last ct_ret ct_world]; try assumption; try reflexivity; try congruence.
      all: rewrite ?r_gas, ?r_len, ?r_refund, ?r_stack; try assumption.
      * apply Forall_rev. assumption.
      * unfold zlen in *. rewrite rev_length. assumption.
    + unfold at_instruction, ct_update. cbn [ct_pc ct_code]. destruct hat as [hat|[h1 h2]]; [left; lia|right]. rewrite Z.min_l by lia. auto.
  - destruct k3 as (st & c1 & -> & he & g1 & g2 & g3). cbn [rbind]. eexists. exists k. split; [reflexivity|]. split; [exact k1|]. split; [exact k2|]. rewrite er.
    destruct h; cbn [ends] in he; [destruct he as [[-> | ->] ->]|destruct he as [-> <-]|destruct he as [-> <-]];
      (split; [|split; [discriminate|split; [reflexivity|split; reflexivity]]]);
      unfold same_state, ct_after, ct_update; cbn [convertLfvmStatus ct_stat ct_code ct_revision ct_readonly ct_pc ct_gas ct_refund ct_stack ct_mem ct_self ct_caller ct_value ct_calldata ct_last ct_ret ct_world];
      (split; [reflexivity|intros _; repeat (split; [first [reflexivity|assumption]|]); reflexivity]).
  - destruct k3 as (c1 & ->). cbn [rbind]. eexists. exists k. split; [reflexivity|]. split; [exact k1|]. split; [exact k2|]. rewrite er.
    split; [|split; [discriminate|split; [reflexivity|split; reflexivity]]]. split; [reflexivity|]. intros h. exfalso. apply h. reflexivity.
Qed.
End One.

(** ** StepN *)
Notation ref s rv := (SpecEvm.run_for (go_host rc tx) (answers Call) keccak (message_of (ToVmParameters hash s)) rv (ct_code s) (is_dest (ct_code s))).
Theorem lfvm_from s rv (n : Z) f : env_ok rc tx Call keccak 0 -> ct_ok s -> at_instruction s -> In (ct_revision s, rv) revisions -> describes s f ->
  exists s' k, LfvmStepN rc tx Call keccak hash s n = Ok (s', None) /\ (k <= Z.to_nat n)%nat /\ (Z.to_nat n <= 2 * k)%nat /\ same_state s' (ct_after s (ref s rv k f)) /\
  match ref s rv k f with Next f' => describes s' f' /\ ct_ok s' /\ at_instruction s' /\ (forall o, ct_after s' o = ct_after s o) | _ => ct_stat s' <> CtRunning end /\
  ct_revision s' = ct_revision s /\ ct_code s' = ct_code s /\ message_of (ToVmParameters hash s') = with_msg_gas (ct_gas s') (message_of (ToVmParameters hash s)).
Proof.
  intros he hok ha hr hd. destruct (convert_total false (ct_code s) (ctk_code s hok)) as (lc & ec & hl); [pose proof (ctk_size s hok); lia|].
  destruct (genPcMap_ok (ct_code s) (ctk_size s hok)) as (lc' & m & ec' & em & _). 
  exact (stepN_from s rv he hok hr lc hl m em ec n f hd ha).
Qed.

Theorem lfvm_steps s rv (n : Z) : env_ok rc tx Call keccak 0 -> ct_ok s -> at_instruction s -> In (ct_revision s, rv) revisions ->
  exists s' k, LfvmStepN rc tx Call keccak hash s n = Ok (s', None) /\ (k <= Z.to_nat n)%nat /\ (Z.to_nat n <= 2 * k)%nat /\ same_state s' (ct_after s (ref s rv k (frame_of s))).
Proof.
  intros he hok ha hr. destruct (lfvm_from s rv n (frame_of s) he hok ha hr (frame_of_describes s ha)) as (s' & k & h1 & h2 & h3 & h4 & _). eauto 6.
Qed.
Theorem lfvm_step s rv : env_ok rc tx Call keccak 0 -> ct_ok s -> at_instruction s -> In (ct_revision s, rv) revisions ->
  exists s', LfvmStepN rc tx Call keccak hash s 1 = Ok (s', None) /\ same_state s' (ct_after s (ref s rv 1 (frame_of s))).
Proof.
  intros he hok ha hr. destruct (lfvm_steps s rv 1 he hok ha hr) as (s' & k & h1 & h2 & h3 & h4). change (Z.to_nat 1) with 1%nat in *. assert (k = 1%nat) by lia. subst k. eauto.
Qed.
Theorem lfvm_idle s n : (5 < ct_revision s -> LfvmStepN rc tx Call keccak hash s n = Ok (s, Some ErrUnsupportedRevision)) /\
  (ct_revision s <= 5 -> ct_stat s <> CtRunning -> LfvmStepN rc tx Call keccak hash s n = Ok (s, None)).
Proof.
  unfold LfvmStepN. change (p_revision (ToVmParameters hash s)) with (ct_revision s). destruct (Z.ltb_spec 5 (ct_revision s)); split; try lia; [reflexivity|]. intros _ h. destruct (ct_stat s); [contradiction|reflexivity..].
Qed.
Lemma idle_single n s : ct_revision s <= 5 -> ct_stat s <> CtRunning -> one_by_one (LfvmStepN rc tx Call keccak hash) n s = Ok (s, None).
Proof. intros h1 h2. induction n as [|n ih]; [reflexivity|]. cbn [one_by_one]. rewrite (proj2 (lfvm_idle s 1) h1 h2). cbn [rbind]. exact ih. Qed.
Lemma revision_le s rv : In (ct_revision (W:=W) s, rv) revisions -> ct_revision s <= 5.
Proof. unfold revisions. cbn. intros h. repeat (destruct h as [h|h]; [injection h as <- _; lia|]). contradiction. Qed.
Lemma single_from n : forall s rv f, env_ok rc tx Call keccak 0 -> ct_ok s -> at_instruction s -> In (ct_revision s, rv) revisions -> describes s f ->
  exists s', one_by_one (LfvmStepN rc tx Call keccak hash) (S n) s = Ok (s', None) /\ same_state s' (ct_after s (ref s rv (S n) f)).
Proof.
  induction n as [|n ih]; intros s rv f he hok ha hr hd; destruct (lfvm_from s rv 1 f he hok ha hr hd) as (s' & k & h1 & h2 & h3 & h4 & h5 & h6 & h7 & h8);
    change (Z.to_nat 1) with 1%nat in *; assert (k = 1%nat) by lia; subst k.
  - exists s'. cbn [one_by_one]. rewrite h1. cbn [rbind]. auto.
  - remember (S n) as n1. cbn [one_by_one]. rewrite h1. cbn [rbind].
    change (S n1) with (1 + n1)%nat. rewrite run_for_app. destruct (ref s rv 1 f) as [f'|h out f'|e f'].
    + destruct h5 as (d1 & d2 & d3 & d4). destruct (ih s' rv f' he d2 d3 ltac:(rewrite h6; exact hr) d1) as (s2 & e2 & g2). exists s2. subst n1. split; [exact e2|].
      rewrite h7, h8 in g2. rewrite gas_irrelevant in g2. rewrite d4 in g2. exact g2.
    + exists s'. rewrite (idle_single n1 s'); [auto|rewrite h6; exact (revision_le s rv hr)|exact h5].
    + exists s'. rewrite (idle_single n1 s'); [auto|rewrite h6; exact (revision_le s rv hr)|exact h5].
Qed.
Theorem lfvm_single n s rv : env_ok rc tx Call keccak 0 -> ct_ok s -> at_instruction s -> In (ct_revision s, rv) revisions -> (0 < n)%nat ->
  exists s', one_by_one (LfvmStepN rc tx Call keccak hash) n s = Ok (s', None) /\ same_state s' (ct_after s (ref s rv n (frame_of s))).
Proof. intros he hok ha hr hn. destruct n as [|n]; [lia|]. exact (single_from n s rv (frame_of s) he hok ha hr (frame_of_describes s ha)). Qed.
End Lfvm.

(** ** evmzero *)
Theorem evmzero_steps {W} (g : setting W) hash v s rv (n : Z) : setting_ok g -> reach g v -> ct_ok s -> 0 <= ct_pc s <= zlen (ct_code s) + 32 ->
  In (ct_revision s, rv) revisions -> g_code_of g (hash (ct_code s)) = ct_code s ->
  exists s' v', EvmzeroStepN g hash v s n = Ok (s', None, v') /\ reach g v' /\
    same_state s' (ct_after s (run_for (g_host g) (nested g) (g_keccak g) (message_of (ToVmParameters hash s)) rv (ct_code s) (is_dest (ct_code s)) (Z.to_nat n) (frame_of s))) /\
    (ct_stat s' = CtRunning -> s' = ct_after s (run_for (g_host g) (nested g) (g_keccak g) (message_of (ToVmParameters hash s)) rv (ct_code s) (is_dest (ct_code s)) (Z.to_nat n) (frame_of s))).
Proof.
  intros hg hv hok hpc hr hh. set (p := ToVmParameters hash s). pose proof (p_msg hash s hok) as hm. fold p in hm.
  assert (he : exec_ok (g_code_of g) (p_code p) (message_of p)).
  { split; [exact hm|cbn; lia|exact (ctk_code s hok)|pose proof (ctk_size s hok); cbn [p ToVmParameters p_code]; lia|]. intros h e _. cbn in e. injection e as <-. symmetry. exact hh. }
  set (si := mkIn STEP_RUNNING (ct_pc s) (ct_refund s) (ct_stack s) (ct_mem s) (ct_last s) n).
  assert (hs : step_ok (p_code p) (message_of p) si).
  { destruct hok. split; cbn [si si_pc si_stack si_mem si_ret si_refunds p ToVmParameters p_code message_of msg_gas p_gas]; try assumption; rewrite ?(Z.max_r 0 (ct_gas s)) by assumption; [assumption|lia]. }
  destruct (stepn_reference g hg v (ct_world s) rv (p_code p) (message_of p) si hv he hs eq_refl) as (so & w' & v' & e & hv' & hsh & hst).
  unfold EvmzeroStepN. fold p. change (p_revision p) with (ct_revision s). pose proof (revision_le s rv hr). destruct (Z.ltb_spec 5 (ct_revision s)); [lia|].
  rewrite (ctk_running s hok), (proj1 (revisions_toEvmc _ _) hr). fold si. rewrite e. cbn [rbind].
  change (frame_in (message_of p) (ct_world s) si) with (frame_of s) in *. cbn [si si_steps] in hsh, hst. unfold ref_run in hst. change (p_code p) with (ct_code s) in *. unfold step_shows in hsh.
  destruct (run_for _ _ _ _ _ _ _ _ _) as [f|h out f|er f] eqn:es.
  - destruct hsh as [-> ->]. cbn [shown so_step so_pc so_gas so_refund so_stack so_mem so_last convertEvmcStatus ct_after]. eexists _, _. split; [reflexivity|]. split; [exact hv'|].
    destruct (hst f eq_refl) as [(_ & hp & _) _]. pose proof (ctk_size s hok). replace (u16 (f_pc f)) with (f_pc f) by (unfold u16; symmetry; apply Z.mod_small; lia).
    split; [|reflexivity]. unfold same_state, ct_update. cbn [ct_stat ct_code ct_revision ct_readonly ct_pc ct_gas ct_refund ct_stack ct_mem ct_self ct_caller ct_value ct_calldata ct_last ct_ret ct_world].
    split; [reflexivity|intros _; repeat (split; [first [reflexivity|left; reflexivity]|]); reflexivity].
  - destruct hsh as [-> ->]. destruct h; cbn [shown step_halt so_step so_pc so_gas so_refund so_stack so_mem so_last so_output convertEvmcStatus ct_after]; eexists _, _; (split; [reflexivity|]); (split; [exact hv'|]);
    (split; [|discriminate]); unfold same_state, ct_update; cbn [ct_stat ct_code ct_revision ct_readonly ct_pc ct_gas ct_refund ct_stack ct_mem ct_self ct_caller ct_value ct_calldata ct_last ct_ret ct_world];
    (split; [reflexivity|intros _; repeat (split; [first [reflexivity|left; reflexivity]|]); reflexivity]).
  - destruct hsh as (k & f1 & _ & _ & _ & -> & _). cbn [convertEvmcStatus]. eexists _, _. split; [reflexivity|]. split; [exact hv'|]. split; [|discriminate]. split; [reflexivity|]. intros h. exfalso. apply h. reflexivity.
Qed.

(** ** Comparisons *)
Lemma same_sym {W} (a b : ct_state W) : same_state a b -> same_state b a.
Proof.
  intros [h1 h2]. split; [auto|]. rewrite <- h1. intros h. destruct (h2 h) as (k1 & k2 & k3 & k4 & k5 & k6 & k7 & k8 & k9 & k10 & k11). repeat (split; [auto|]).
  destruct (ct_stat a); auto. destruct k11 as (m1 & m2 & m3 & m4). repeat split; auto. rewrite <- k1. destruct m1; [left; auto|right; tauto].
Qed.
Lemma same_trans {W} (a b c : ct_state W) : same_state a b -> same_state b c -> same_state a c.
Proof.
  intros [h1 h2] [g1 g2]. split; [congruence|]. intros h. destruct (h2 h) as (k1 & k2 & k3 & k4 & k5 & k6 & k7 & k8 & k9 & k10 & k11). rewrite <- h1 in g2.
  destruct (g2 h) as (l1 & l2 & l3 & l4 & l5 & l6 & l7 & l8 & l9 & l10 & l11). repeat (split; [congruence|]).
  destruct (ct_stat a); try congruence. destruct k11 as (m1 & m2 & m3 & m4), l11 as (n1 & n2 & n3 & n4). split; [|repeat split; congruence].
  rewrite <- k1 in n1. destruct m1 as [m1|m1], n1 as [n1|n1]; [left; congruence|right; rewrite m1; exact n1|right; rewrite <- n1; exact m1|right; tauto].
Qed.
Lemma list_eqb_iff a b : list_eqb a b = true <-> a = b.
Proof. unfold list_eqb. destruct (list_eq_dec Z.eq_dec a b); split; congruence. Qed.
Theorem state_eq {W} (weq : W -> W -> bool) (a b : ct_state W) : (forall x y, weq x y = true <-> x = y) -> zlen (ct_code a) < 2 ^ 16 ->
  StateEq weq a b = true <-> same_state a b.
Proof.
  intros hw hz. pose proof (zlen_nonneg (ct_code a)) as h0. unfold StateEq, same_state. assert (hu : u16 (zlen (ct_code a)) = zlen (ct_code a)) by (unfold u16; apply Z.mod_small; lia). rewrite hu.
  destruct (ct_stat a), (ct_stat b); cbn [status_eqb negb andb]; try (split; [discriminate|intros [h _]; discriminate h]);
  try (rewrite !andb_true_iff, !list_eqb_iff, !Z.eqb_eq, eqb_true_iff, hw; split; [intros h; split; [reflexivity|intros _]; tauto|intros [_ h]; specialize (h ltac:(discriminate)); tauto]).
  - rewrite !andb_true_iff, orb_true_iff, andb_true_iff, !list_eqb_iff, !Z.eqb_eq, !Z.leb_le, eqb_true_iff, hw. split; [intros h; split; [reflexivity|intros _]; tauto|intros [_ h]; specialize (h ltac:(discriminate)); tauto].
  - split; [intros _; split; [reflexivity|intros h; contradiction]|reflexivity].
Qed.

(** ** Both targets *)
Theorem targets_agree {W} (rc : run_context W) tx Call keccak hash g v s rv : setting_ok g -> g_host g = go_host rc tx -> g_keccak g = keccak -> (forall w m, nested g w m = answers Call w m) ->
  reach g v -> g_code_of g (hash (ct_code s)) = ct_code s -> env_ok rc tx Call keccak 0 -> ct_ok s -> at_instruction s -> In (ct_revision s, rv) revisions ->
  exists a b v', LfvmStepN rc tx Call keccak hash s 1 = Ok (a, None) /\ EvmzeroStepN g hash v s 1 = Ok (b, None, v') /\ same_state a b /\ zlen (ct_code a) < 2 ^ 16.
Proof.
  intros hg eh ek hn hv hh he hok ha hr. destruct (lfvm_from rc tx Call keccak hash s rv 1 (frame_of s) he hok ha hr (frame_of_describes s ha)) as (a & k & h1 & h2 & h3 & h4 & _ & _ & hc & _).
  change (Z.to_nat 1) with 1%nat in *. assert (k = 1%nat) by lia. subst k.
  assert (hpc : 0 <= ct_pc s <= zlen (ct_code s) + 32). { pose proof (zlen_nonneg (ct_code s)). destruct ha as [ha|[ha1 ha2]]; [lia|]. pose proof (start_nonneg _ _ ha1). lia. }
  destruct (evmzero_steps g hash v s rv 1 hg hv hok hpc hr hh) as (b & v' & e & _ & g4 & _). exists a, b, v'. split; [exact h1|]. split; [exact e|].
  rewrite eh, ek in g4. change (Z.to_nat 1) with 1%nat in g4. rewrite (runs_ext (go_host rc tx) _ _ keccak _ _ _ _ hn) in g4. split; [|rewrite hc; pose proof (ctk_size s hok); lia].
  apply same_trans with (1 := h4). apply same_sym. exact g4.
Qed.
