(** Every op code implementation simulates the corresponding instruction of the reference
    semantics (all op codes except calls, creates and jumps). *)
From Verif Require Import Base Host Uint256 Memory Opcodes Interp SpecEvm ArithFacts MemFacts JumpFacts SimBase.
From Coq Require Import Lia ZArith List Bool.

Section Sim.
Context {W SH : Type}.
Variable S : sys W SH.
Variable shok : SH -> Prop.
Variable call : W -> message -> cresult * W.
Variable may : W -> SH -> message -> Prop.
Variable after : SH -> Prop.
Variables (msg : message) (rev : revision) (code targets : list Z) (cache : bool).

Notation H := (s_host S).
Notation E := (make_env msg rev (pad_code code) targets cache).
Notation mst := (mst W SH).
Notation frame := (frame W).
Notation outcome := (outcome W).

Hypothesis Hsys : sys_ok S shok call may after (msg_depth msg).
Hypothesis Hmsg : msg_ok msg.
Hypothesis Hcode : Forall is_byte code.
Hypothesis Hcode_len : zlen code <= 2 ^ 32.

Definition sim (len delta args : Z) (m : Z -> Z -> Z -> M (W:=W) (SH:=SH) op_result) (sp : frame -> outcome) : Prop :=
  forall top f s, rel shok top s f -> inv f -> args <= zlen (f_stack f) -> zlen (f_stack f) + delta <= 1024 ->
  0 <= f_pc f -> f_pc f + len <= zlen code + 33 ->
  wp (m top (f_pc f) (f_gas f)) s (op_post shok len delta top f s (sp f)).




(** ** Simple value computations *)
Lemma sim_binary (f' g' : Z -> Z -> Z) :
  (forall a b, is_word a -> is_word b -> f' a b = g' a b /\ is_word (g' a b)) ->
  sim 1 (-1) 2 (fun top _ _ => op_binary f' top) (bin g').
Proof.
  intros Hf. start. stk2. inv_forall'. unfold bin. fld.
  destruct (Hf a b) as [Ef Hg]; [assumption|assumption|].
  unfold op_binary. rdt. rdt. wrt. apply wp_ret. rewrite Ef in *. next_tac 1. fwords.
Qed.

Lemma sim_unary (f' g' : Z -> Z) :
  (forall a, is_word a -> f' a = g' a /\ is_word (g' a)) ->
  sim 1 0 1 (fun top _ _ => op_unary f' top) (un g').
Proof.
  intros Hf. start. stk1. inv_forall'. unfold un. fld.
  destruct (Hf a) as [Ef Hg]; [assumption|].
  unfold op_unary. rdt. wrt. apply wp_ret. rewrite Ef in *. next_tac 0. fwords.
Qed.

Lemma sim_push (v : Z) : is_word v -> sim 1 1 0 (fun top _ _ => op_push v top) (push v).
Proof.
  intros Hv. start. unfold push. fld. unfold op_push. pusht. apply wp_ret. next_tac 0. fwords.
Qed.

Lemma sim_div : sim 1 (-1) 2 (fun top _ _ => op_div top) (bin w_div).
Proof.
  start. stk2. inv_forall'. unfold bin, w_div, op_div. fld. rdt. destruct (Z.eqb_spec b 0) as [->|Hb].
  - apply wp_ret. next_tac 1. fwords.
  - rdt. apply wp_bind. eapply wp_lift. { unfold u_div. destruct (Z.eqb_spec b 0); [lia|reflexivity]. }
    wrt. apply wp_ret. next_tac 1. fwords. unfold is_word in *.
    split; [apply Z.div_pos; lia|]. apply Z.div_lt_upper_bound; [lia|]. nia.
Qed.
Lemma sim_mod : sim 1 (-1) 2 (fun top _ _ => op_mod top) (bin w_mod).
Proof.
  start. stk2. inv_forall'. unfold bin, w_mod, op_mod. fld. rdt. destruct (Z.eqb_spec b 0) as [->|Hb].
  - apply wp_ret. next_tac 1. fwords.
  - rdt. apply wp_bind. eapply wp_lift. { unfold u_mod. destruct (Z.eqb_spec b 0); [lia|reflexivity]. }
    wrt. apply wp_ret. next_tac 1. fwords. unfold is_word in *.
    pose proof (Z.mod_pos_bound a b ltac:(lia)). lia.
Qed.
Lemma sim_sdiv : sim 1 (-1) 2 (fun top _ _ => op_sdiv top) (bin w_sdiv).
Proof.
  start. stk2. inv_forall'. unfold bin, op_sdiv. fld. rdt. destruct (Z.eqb_spec b 0) as [->|Hb].
  - apply wp_ret. change (w_sdiv a 0) with 0. next_tac 1. fwords.
  - rdt. apply wp_bind. eapply wp_lift; [apply u_sdivrem_spec; assumption|]. cbn [fst].
    wrt. apply wp_ret. next_tac 1. fwords. unfold w_sdiv. destruct (Z.eqb_spec b 0); [lia|apply to_word_range].
Qed.
Lemma sim_smod : sim 1 (-1) 2 (fun top _ _ => op_smod top) (bin w_smod).
Proof.
  start. stk2. inv_forall'. unfold bin, op_smod. fld. rdt. destruct (Z.eqb_spec b 0) as [->|Hb].
  - apply wp_ret. change (w_smod a 0) with 0. next_tac 1. fwords.
  - rdt. apply wp_bind. eapply wp_lift; [apply u_sdivrem_spec; assumption|]. cbn [snd].
    wrt. apply wp_ret. next_tac 1. fwords. unfold w_smod. destruct (Z.eqb_spec b 0); [lia|apply to_word_range].
Qed.
Lemma sim_addmod : sim 1 (-2) 3 (fun top _ _ => op_addmod top) (tern w_addmod).
Proof.
  start. stk3. inv_forall'. unfold tern, w_addmod, op_addmod. fld. rdt. destruct (Z.eqb_spec c 0) as [->|Hb].
  - apply wp_ret. next_tac 2. fwords.
  - rdt. rdt. apply wp_bind. eapply wp_lift. { unfold u_addmod. destruct (Z.eqb_spec c 0); [lia|reflexivity]. }
    wrt. apply wp_ret. next_tac 2. fwords. unfold is_word in *.
    pose proof (Z.mod_pos_bound (a + b) c ltac:(lia)). lia.
Qed.
Lemma sim_mulmod : sim 1 (-2) 3 (fun top _ _ => op_mulmod top) (tern w_mulmod).
Proof.
  start. stk3. inv_forall'. unfold tern, w_mulmod, op_mulmod. fld. rdt. destruct (Z.eqb_spec c 0) as [->|Hb].
  - apply wp_ret. next_tac 2. fwords.
  - rdt. rdt. apply wp_bind. eapply wp_lift. { unfold u_mulmod. destruct (Z.eqb_spec c 0); [lia|reflexivity]. }
    wrt. apply wp_ret. next_tac 2. fwords. unfold is_word in *.
    pose proof (Z.mod_pos_bound (a * b) c ltac:(lia)). lia.
Qed.

(** Failing in the model by returning more dynamic gas than there is *)

Lemma sim_exp : sim 1 (-1) 2 (fun top _ gas => op_exp top gas) i_exp.
Proof.
  start. stk2. inv_forall'. unfold i_exp, op_exp. fld. rdt. rdt.
  pose proof (byte_count_range b ltac:(assumption)).
  change (count_significant_bytes b) with (byte_count b).
  apply wp_bind. apply wp_i64; [unpow; lia|]. unfold charge. fld.
  destruct (Z.ltb_spec g (50 * byte_count b)).
  - apply wp_ret. fail_dyn.
  - wrt. apply wp_ret. rewrite u_exp_spec in * by assumption. next_tac 1. fwords.
Qed.

(** ** Memory *)

Lemma wp_get_span off n mf a s (Q : list Z -> mst -> Prop) :
  mem_rel (m_mem s) mf a -> 0 <= n -> (n <> 0 -> 0 <= off /\ off + n < 2 ^ 62) ->
  (forall m', mem_rel m' mf (expand a off n) -> Q (read_bytes mf off n) (set_mem m' s)) ->
  wp (memory_get_span S off n) s Q.
Proof.
  intros HR Hn Ho HQ. destruct (mem_get_span_spec _ _ _ off n HR Hn Ho) as (m' & Em & HR').
  unfold wp, memory_get_span. rewrite (sok_strict _ _ _ _ _ _ Hsys), Em. cbn [rbind]. auto.
Qed.
Lemma wp_write_to off n mf a s (Q : list Z -> mst -> Prop) :
  mem_rel (m_mem s) mf a -> 0 <= n -> (n <> 0 -> 0 <= off /\ off + n < 2 ^ 62) ->
  (forall m', mem_rel m' mf (expand a off n) -> Q (read_bytes mf off n) (set_mem m' s)) ->
  wp (memory_write_to S n off) s Q.
Proof. exact (wp_get_span off n mf a s Q). Qed.
Lemma wp_read_from_ws buf off n mf a s (Q : unit -> mst -> Prop) :
  mem_rel (m_mem s) mf a -> Forall is_byte buf -> 0 <= n -> (n <> 0 -> 0 <= off /\ off + n < 2 ^ 62) ->
  (forall m', mem_rel m' (write_bytes mf off (data_bytes buf 0 n)) (expand a off n) -> Q tt (set_mem m' s)) ->
  wp (memory_read_from_with_size S buf off n) s Q.
Proof.
  intros HR Hb Hn Ho HQ. destruct (mem_read_from_with_size_spec _ _ _ buf off n HR Hb Hn Ho) as (m' & Em & HR').
  unfold wp, memory_read_from_with_size. rewrite (sok_strict _ _ _ _ _ _ Hsys), Em. cbn [rbind]. auto.
Qed.
Lemma wp_read_from buf off mf a s (Q : unit -> mst -> Prop) :
  mem_rel (m_mem s) mf a -> Forall is_byte buf -> (buf <> [] -> 0 <= off /\ off + zlen buf < 2 ^ 62) ->
  (forall m', mem_rel m' (write_bytes mf off buf) (expand a off (zlen buf)) -> Q tt (set_mem m' s)) ->
  wp (memory_read_from S buf off) s Q.
Proof.
  intros HR Hb Ho HQ. destruct (mem_read_from_spec _ _ _ buf off HR Hb Ho) as (m' & Em & HR').
  unfold wp, memory_read_from. rewrite (sok_strict _ _ _ _ _ _ Hsys), Em. cbn [rbind]. auto.
Qed.
Lemma wp_mem_copy dst src n mf a s (Q : unit -> mst -> Prop) :
  mem_rel (m_mem s) mf a -> 0 <= n -> (n <> 0 -> 0 <= dst /\ dst + n < 2 ^ 62 /\ 0 <= src /\ src + n < 2 ^ 62) ->
  (forall m', mem_rel m' (write_bytes mf dst (read_bytes mf src n)) (expand (expand a src n) dst n) -> Q tt (set_mem m' s)) ->
  wp (memory_mem_copy S dst src n) s Q.
Proof.
  intros HR Hn Ho HQ. destruct (mem_copy_spec _ _ _ dst src n HR Hn Ho) as (m' & Em & HR').
  unfold wp, memory_mem_copy. rewrite (sok_strict _ _ _ _ _ _ Hsys), Em. cbn [rbind]. auto.
Qed.

(** With size 0 the offset is irrelevant. *)
Lemma read_bytes_off mf o off n : (n <> 0 -> o = off) -> read_bytes mf o n = read_bytes mf off n.
Proof. intros Ho. destruct (Z.eq_dec n 0) as [->|h]; [reflexivity|]. rewrite Ho by assumption. reflexivity. Qed.
Lemma expand_off a o off n : (n <> 0 -> o = off) -> expand a o n = expand a off n.
Proof. intros Ho. destruct (Z.eq_dec n 0) as [->|h]; [reflexivity|]. rewrite Ho by assumption. reflexivity. Qed.
Lemma write_bytes_off mf o off bs n i : zlen bs = n -> (n <> 0 -> o = off) -> write_bytes mf o bs i = write_bytes mf off bs i.
Proof.
  intros Hl Ho. destruct (Z.eq_dec n 0) as [->|h]; [|rewrite Ho by assumption; reflexivity].
  apply zlen_0_nil in Hl. subst. rewrite !write_bytes_nil. reflexivity.
Qed.

Lemma copy_ovf k mc c : 0 <= k <= 6 -> 0 <= mc <= kMaxGas -> 0 <= c < 2 ^ 59 ->
  mul_overflow_i64 k c = (false, k * c) /\
  add_overflow_i64 (k * c) mc = (negb (k * c + mc <? 2 ^ 63), s64 (k * c + mc)).
Proof.
  intros Hk Hm Hc. unfold mul_overflow_i64, add_overflow_i64, in_i64.
  change (2 ^ 59) with 576460752303423488 in Hc. assert (0 <= k * c < 2 ^ 63) by (unpow; nia).
  assert ((- 2 ^ 63 <=? k * c) = true) as -> by (apply Z.leb_le; unpow; lia).
  assert ((k * c <? 2 ^ 63) = true) as -> by (apply Z.ltb_lt; lia).
  assert ((- 2 ^ 63 <=? k * c + mc) = true) as -> by (apply Z.leb_le; unpow; lia).
  cbn [andb negb]. rewrite s64_small by lia. split; reflexivity.
Qed.

(** the overflow-checked "k * words + memory cost <= gas" test *)
Lemma copy_cost_test k mc size n fee g c :
  0 <= k <= 6 -> 0 <= mc <= kMaxGas -> 0 <= g < 2 ^ 54 -> 0 <= size < 2 ^ 64 -> c = word_size size ->
  0 <= n < 2 ^ 256 -> 0 <= fee ->
  (fee <= g -> mc = fee /\ size = n /\ (n <> 0 -> n < 2 ^ 37)) -> (g < fee -> g < mc) ->
  let '(o1, g1) := mul_overflow_i64 k c in
  let '(o2, dg) := if o1 then (true, g1) else add_overflow_i64 g1 mc in
  (o2 || (g <? dg)) = (g <? k * words n + fee) /\
  (o2 || (g <? dg) = false -> dg = k * words n + fee /\ size = n /\ mc = fee).
Proof.
  intros Hk Hmc Hg Hs -> Hn Hfee F1 F2. pose proof (word_size_range size) as Hws.
  destruct (copy_ovf k mc (word_size size) Hk Hmc Hws) as [-> ->]. cbv beta iota.
  destruct (Z_le_gt_dec fee g) as [Hle|Hgt].
  - destruct (F1 Hle) as (-> & -> & Hn'). assert (n < 2 ^ 37). { destruct (Z.eq_dec n 0); [subst; reflexivity|auto]. }
    change (2 ^ 37) with 137438953472 in *. rewrite word_size_spec in * by (unpow; lia).
    pose proof (words_nonneg n ltac:(lia)). pose proof (words_bound n).
    assert (k * words n <= 6 * words n) by nia.
    assert (0 <= k * words n) by nia.
    destruct (Z.ltb_spec (k * words n + fee) (2 ^ 63)); [|unpow; lia]. cbn [negb orb].
    rewrite s64_small by lia. split; auto.
  - specialize (F2 ltac:(lia)).
    assert (0 <= k * word_size size) by nia. assert (0 <= words n) by (apply words_nonneg; lia).
    assert (0 <= k * words n) by nia.
    destruct (Z.ltb_spec g (k * words n + fee)); [|lia].
    destruct (Z.ltb_spec (k * word_size size + mc) (2 ^ 63)); cbn [negb orb].
    + rewrite s64_small by lia. destruct (Z.ltb_spec g (k * word_size size + mc)); [|lia]. split; [reflexivity|discriminate].
    + split; [reflexivity|discriminate].
Qed.


Lemma sim_sha3 : sim 1 (-1) 2 (fun top _ gas => op_sha3 S E top gas) (i_sha3 (s_keccak S)).
Proof.
  start. stk2. inv_forall'. unfold i_sha3, op_sha3. fld. rdt. rdt. costt a b g.
  pose proof (mr_nonneg _ _ _ Rm) as Hact. pose proof (fee_nonneg act a b Hact) as Hfee.
  pose proof (Gmem_nonneg act Hact).
  set (fee := Gmem (expand act a b) - Gmem act) in *.
  pose proof (copy_cost_test 6 mc mk b fee g (word_size mk) ltac:(lia) ltac:(assumption) ltac:(lia) ltac:(assumption)
    eq_refl ltac:(assumption) ltac:(assumption)) as T.
  destruct (mul_overflow_i64 6 (word_size mk)) as [o1 g1].
  destruct (if o1 then (true, g1) else add_overflow_i64 g1 mc) as [o2 dg]. unfold is_word in *.
  destruct T as [T1 T2]; [intuition lia|assumption|]. rewrite T1. unfold charge. fld. fold fee.
  change (mem_fee _ a b) with fee. rewrite T1 in T2. destruct (Z.ltb_spec g (6 * words b + fee)).
  - apply wp_ret. fail_state.
  - destruct (T2 eq_refl) as (-> & -> & ->). clear T1 T2.
    assert (b <> 0 -> mo = a /\ 0 <= a + b < 2 ^ 37) as Hoff by (intros; apply Fyes; [pose proof (words_nonneg b); lia|assumption]).
    change (2 ^ 37) with 137438953472 in *.
    pose proof (words_nonneg b ltac:(lia)).
    apply wp_bind. eapply wp_get_span; [fld; eassumption|lia|intros; unpow; lia|].
    intros m' Rm'. rewrite (read_bytes_off mf mo a b) by (intros; apply Hoff; assumption).
    rewrite (expand_off act mo a b) in Rm' by (intros; apply Hoff; assumption).
    cbn [e_cache make_env]. destruct cache.
    + apply wp_bind. destruct (sok_hash _ _ _ _ _ _ Hsys sh (read_bytes mf a b)) as (sh' & Eh & Hsh');
        [assumption|eapply mem_rel_read_byte; [eassumption|intros; lia]|].
      unfold wp at 1. fld. rewrite Eh. cbn [rbind].
      wrt. apply wp_ret. next_tac 1. fwords. apply (sok_keccak _ _ _ _ _ _ Hsys).
    + wrt. apply wp_ret. next_tac 1. fwords. apply (sok_keccak _ _ _ _ _ _ Hsys).
Qed.

(** ** Host queries *)
Lemma account_cost_sim addr pc g stk mf act rt rf w :
  exists c w1, account_cost H rev (mkFrame pc g stk mf act rt rf w) addr = (c, mkFrame pc g stk mf act rt rf w1) /\
    100 <= c <= 2600 /\
    forall buf m rt' rf' sh (Q : Z -> mst -> Prop), Q c (mkMst buf m rt' rf' w1 sh) ->
      wp (account_access_cost S E addr) (mkMst buf m rt' rf' w sh) Q.
Proof.
  unfold account_cost, account_access_cost. cbn [e_rev make_env]. destruct (rev_ge rev Berlin).
  - fld. destruct (h_access_account H w addr) as [st w1] eqn:Ea. exists (match st with COLD => 2600 | WARM => 100 end), w1.
    split; [reflexivity|]. split; [destruct st; lia|]. intros ? ? ? ? ? Q HQ. apply wp_bind. unfold wp, host_access_account. fld. rewrite Ea.
    cbn. destruct st; exact HQ.
  - exists 700, w. split; [reflexivity|]. split; [lia|]. intros. apply wp_ret. assumption.
Qed.

Lemma sim_account (q : W -> Z -> Z) : (forall w a, is_word (q w a)) ->
  sim 1 0 1 (fun top _ gas => op_account_query S E q top gas) (i_account H rev q).
Proof.
  intros Hq. start. stk1. inv_forall'. unfold i_account, op_account_query. fld. rdt.
  change (to_address a) with (addr_of a).
  destruct (account_cost_sim (addr_of a) pc g (a :: stk0) mf act rt rf w) as (c & w1 & -> & Hc & Hwp).
  apply wp_bind. apply Hwp. unfold charge. fld. destruct (Z.ltb_spec g c).
  - apply wp_ret. fail_dyn.
  - apply wp_bind. unfold wp at 1, get_w. fld. wrt. apply wp_ret. next_tac 0. fwords. apply Hq.
Qed.

Lemma sim_tx (q : tx_context -> Z) : (forall t, tx_ok t -> is_word (q t)) ->
  sim 1 1 0 (fun top _ _ => op_tx S q top) (i_tx H q).
Proof.
  intros Hq. start. unfold i_tx, op_tx, push. fld. apply wp_bind. unfold wp at 1, get_w. fld.
  pusht. apply wp_ret. next_tac 0. fwords. apply Hq, (hok_tx _ (sok_host _ _ _ _ _ _ Hsys)).
Qed.

Lemma skipn_data (d : list Z) off : zlen d <= off -> skipn (Z.to_nat off) d = [].
Proof. intros. apply skipn_all2. unfold zlen in *. lia. Qed.

Lemma data_bytes_skip d off n : 0 <= off -> 0 <= n -> data_bytes (skipn (Z.to_nat off) d) 0 n = data_bytes d off n.
Proof.
  intros. rewrite !data_bytes_read. unfold read_bytes. apply map_ext. intros i. rewrite data_at_skipn by lia. f_equal.
Qed.

Lemma wp_subspan data limit off s (Q : list Z -> mst -> Prop) : 0 <= off -> limit <= zlen data -> zlen data < 2 ^ 64 ->
  Q (if off <? limit then skipn (Z.to_nat off) data else []) s -> wp (subspan_or_empty data limit off) s Q.
Proof.
  intros Ho Hl Hd HQ. unfold subspan_or_empty. destruct (Z.ltb_spec off limit).
  - rewrite u64_small by lia. destruct (Z.leb_spec off (zlen data)); [|lia]. apply wp_ret. assumption.
  - apply wp_ret. assumption.
Qed.

Lemma sim_calldataload : sim 1 0 1 (fun top _ _ => op_calldataload E top) (i_calldataload msg).
Proof.
  start. stk1. inv_forall'. unfold i_calldataload, un, op_calldataload. fld. cbn [e_msg make_env]. rdt.
  destruct Hmsg. unfold is_word in *.
  apply wp_bind. apply wp_subspan; [lia|lia|unpow; lia|].
  assert ((if a <? zlen (msg_input msg) then skipn (Z.to_nat a) (msg_input msg) else []) = skipn (Z.to_nat a) (msg_input msg)) as ->.
  { destruct (Z.ltb_spec a (zlen (msg_input msg))); [reflexivity|]. rewrite skipn_data by lia. reflexivity. }
  rewrite <- data_bytes_pad by lia. rewrite z_of_be_be. wrt. apply wp_ret. next_tac 0. fwords.
  apply be_word; [apply data_bytes_byte; assumption|]. rewrite data_bytes_zlen. lia.
Qed.

(** the tail of all copying op codes *)
Lemma copy_view d limit off n : 0 <= off -> 0 <= n -> zlen d = limit ->
  data_bytes (if off <? limit then skipn (Z.to_nat off) d else []) 0 n = data_bytes d off n.
Proof.
  intros. destruct (Z.ltb_spec off limit); [apply data_bytes_skip; lia|].
  rewrite <- (data_bytes_skip d) by lia. rewrite skipn_data by lia. reflexivity.
Qed.

Lemma view_bytes d limit off : Forall is_byte d -> Forall is_byte (if off <? limit then skipn (Z.to_nat off) d else []).
Proof. intros. destruct (off <? limit); [apply Forall_skipn'; assumption|constructor]. Qed.

Lemma sim_calldatacopy : sim 1 (-3) 3 (fun top _ gas => op_calldatacopy S E top gas) (i_copy (msg_input msg)).
Proof.
  start. stk3. inv_forall'. unfold i_copy, op_calldatacopy, copy_cost. fld. cbn [e_msg make_env]. rdt. rdt. rdt. costt a c g.
  pose proof (mr_nonneg _ _ _ Rm) as Hact. pose proof (fee_nonneg act a c Hact) as Hfee.
  pose proof (Gmem_nonneg act Hact).
  set (fee := Gmem (expand act a c) - Gmem act) in *.
  pose proof (copy_cost_test 3 mc mk c fee g (word_size mk) ltac:(lia) ltac:(assumption) ltac:(lia) ltac:(assumption)
    eq_refl ltac:(assumption) ltac:(assumption)) as T.
  destruct (mul_overflow_i64 3 (word_size mk)) as [o1 g1].
  destruct (if o1 then (true, g1) else add_overflow_i64 g1 mc) as [o2 dg]. unfold is_word in *.
  destruct T as [T1 T2]; [intuition lia|assumption|]. rewrite T1. unfold charge. fld. fold fee.
  change (mem_fee _ a c) with fee. rewrite T1 in T2. destruct (Z.ltb_spec g (3 * words c + fee)).
  - apply wp_bind. apply wp_i64; [unpow; lia|]. apply wp_ret. fail_dyn.
  - destruct (T2 eq_refl) as (-> & -> & ->). clear T1 T2.
    assert (c <> 0 -> mo = a /\ 0 <= a + c < 2 ^ 37) as Hoff by (intros; apply Fyes; [pose proof (words_nonneg c); lia|assumption]).
    change (2 ^ 37) with 137438953472 in *.
    pose proof (words_nonneg c ltac:(lia)). destruct Hmsg.
    apply wp_bind. apply wp_subspan; [lia|lia|unpow; lia|].
    apply wp_bind. eapply wp_read_from_ws; [fld; eassumption|apply view_bytes; assumption|lia|intros; unpow; lia|].
    intros m' Rm'. rewrite copy_view in Rm' by lia.
    rewrite (expand_off act mo a c) in Rm' by (intros; apply Hoff; assumption).
    apply wp_ret. next_tac 3.
    eapply mem_rel_ext; [exact Rm'|]. intros. eapply write_bytes_off; [rewrite data_bytes_zlen; reflexivity|]. intros; apply Hoff; lia.
Qed.

Lemma pad_code_zlen : zlen (pad_code code) = zlen code + 33.
Proof. unfold pad_code. rewrite zlen_app. reflexivity. Qed.
Lemma code_size_spec : code_size E = zlen code.
Proof.
  unfold code_size. cbn [e_code make_env]. rewrite pad_code_zlen. unfold kStopBytePadding.
  pose proof (zlen_nonneg code). rewrite u64_small by (unpow; lia). lia.
Qed.
Lemma pad_code_at i : data_at (pad_code code) i = data_at code i.
Proof.
  destruct (Z_lt_ge_dec i 0).
  - unfold data_at. destruct (Z.leb_spec 0 i); [lia|reflexivity].
  - unfold pad_code. rewrite data_at_app by lia. destruct (Z.ltb_spec i (zlen code)); [reflexivity|].
    rewrite (data_at_out code) by lia. rewrite data_at_nth by lia. apply nth_repeat.
Qed.
Lemma pad_code_bytes : Forall is_byte (pad_code code).
Proof.
  unfold pad_code. apply Forall_app; split; [assumption|]. apply Forall_forall. intros x Hx.
  apply repeat_spec in Hx. subst. unfold is_byte, op_STOP; lia.
Qed.

Lemma sim_codecopy : sim 1 (-3) 3 (fun top _ gas => op_codecopy S E top gas) (i_copy code).
Proof.
  start. stk3. inv_forall'. unfold i_copy, op_codecopy, copy_cost. fld. rdt. rdt. rdt. costt a c g.
  pose proof (mr_nonneg _ _ _ Rm) as Hact. pose proof (fee_nonneg act a c Hact) as Hfee.
  pose proof (Gmem_nonneg act Hact).
  set (fee := Gmem (expand act a c) - Gmem act) in *.
  pose proof (copy_cost_test 3 mc mk c fee g (word_size mk) ltac:(lia) ltac:(assumption) ltac:(lia) ltac:(assumption)
    eq_refl ltac:(assumption) ltac:(assumption)) as T.
  destruct (mul_overflow_i64 3 (word_size mk)) as [o1 g1].
  destruct (if o1 then (true, g1) else add_overflow_i64 g1 mc) as [o2 dg]. unfold is_word in *.
  destruct T as [T1 T2]; [intuition lia|assumption|]. rewrite T1. unfold charge. fld. fold fee.
  change (mem_fee _ a c) with fee. rewrite T1 in T2. destruct (Z.ltb_spec g (3 * words c + fee)).
  - apply wp_ret. fail_state.
  - destruct (T2 eq_refl) as (-> & -> & ->). clear T1 T2.
    assert (c <> 0 -> mo = a /\ 0 <= a + c < 2 ^ 37) as Hoff by (intros; apply Fyes; [pose proof (words_nonneg c); lia|assumption]).
    change (2 ^ 37) with 137438953472 in *.
    pose proof (words_nonneg c ltac:(lia)). pose proof pad_code_zlen as Hpl.
    rewrite code_size_spec. cbn [e_code make_env].
    apply wp_bind. apply wp_subspan; [lia|lia|unpow; lia|].
    apply wp_bind. eapply wp_read_from_ws; [fld; eassumption|apply view_bytes, pad_code_bytes|lia|intros; unpow; lia|].
    intros m' Rm'.
    assert (data_bytes (if b <? zlen code then skipn (Z.to_nat b) (pad_code code) else []) 0 c = data_bytes code b c) as Ed.
    { destruct (Z.ltb_spec b (zlen code)).
      - rewrite data_bytes_skip by lia. rewrite !data_bytes_read. apply read_bytes_ext; [lia|]. intros. apply pad_code_at.
      - rewrite <- (data_bytes_skip code) by lia. rewrite skipn_data by lia. reflexivity. }
    rewrite Ed in Rm'.
    rewrite (expand_off act mo a c) in Rm' by (intros; apply Hoff; assumption).
    apply wp_ret. next_tac 3.
    eapply mem_rel_ext; [exact Rm'|]. intros. eapply write_bytes_off; [rewrite data_bytes_zlen; reflexivity|]. intros; apply Hoff; lia.
Qed.

(** plain memory cost test *)
(** destruct the test [g < fee] of the specification and align the model's one *)

Lemma sim_mload : sim 1 0 1 (fun top _ gas => op_mload S top gas) i_mload.
Proof.
  start. stk1. inv_forall'. unfold i_mload, op_mload. fld. rdt.
  assert (is_word 32) as H32 by (unfold is_word; unpow; lia). costt a 32 g. plain_mem a 32. unfold charge. fld.
  change (mem_fee _ a 32) with fee. unfold is_word in *. aff g fee mc.
  - apply wp_ret. fail_dyn.
  - destruct Hoff as [-> Hoff]; [lia|]. apply wp_bind. eapply wp_write_to; [fld; eassumption|lia|intros; unpow; lia|].
    intros m' Rm'. rewrite u_bswap_le.
    + wrt. apply wp_ret. next_tac 0. fwords. apply be_word.
      * eapply mem_rel_read_byte; [eassumption|intros; lia].
      * rewrite read_bytes_zlen. lia.
    + pose proof (read_bytes_zlen mf a 32) as E32. unfold zlen in E32. lia.
    + eapply mem_rel_read_byte; [eassumption|intros; lia].
Qed.

Lemma sim_mstore : sim 1 (-2) 2 (fun top _ gas => op_mstore S top gas) i_mstore.
Proof.
  start. stk2. inv_forall'. unfold i_mstore, op_mstore. fld. rdt. rdt.
  assert (is_word 32) as H32 by (unfold is_word; unpow; lia). costt a 32 g. plain_mem a 32. unfold charge. fld.
  change (mem_fee _ a 32) with fee. unfold is_word in *. aff g fee mc.
  - apply wp_ret. fail_dyn.
  - destruct Hoff as [-> Hoff]; [lia|]. rewrite mstore_bytes.
    assert (zlen (be_bytes 32 b) = 32) as Hl by (unfold zlen; rewrite be_bytes_length; reflexivity).
    apply wp_bind. eapply wp_read_from; [fld; eassumption|apply be_bytes_byte|intros; rewrite Hl; unpow; lia|].
    rewrite Hl. intros m' Rm'. apply wp_ret. next_tac 2.
Qed.

Lemma sim_mstore8 : sim 1 (-2) 2 (fun top _ gas => op_mstore8 S top gas) i_mstore8.
Proof.
  start. stk2. inv_forall'. unfold i_mstore8, op_mstore8. fld. rdt. rdt.
  assert (is_word 1) as H32 by (unfold is_word; unpow; lia). costt a 1 g. plain_mem a 1. unfold charge. fld.
  change (mem_fee _ a 1) with fee. unfold is_word in *. aff g fee mc.
  - apply wp_ret. fail_dyn.
  - destruct Hoff as [-> Hoff]; [lia|]. unfold u8.
    apply wp_bind. eapply wp_read_from; [fld; eassumption| |intros; unpow; change (zlen [b mod 256]) with 1; lia|].
    { constructor; [apply Z.mod_pos_bound; lia|constructor]. }
    change (zlen [b mod 256]) with 1. intros m' Rm'. apply wp_ret. next_tac 2.
Qed.

Lemma sim_return h : (h <> Stopped) -> sim 1 (-2) 2 (fun top _ gas => op_return S (halt_state h) top gas) (i_return h).
Proof.
  intros Hh. start. stk2. inv_forall'. unfold i_return, op_return. fld. rdt. rdt. costt a b g. plain_mem a b. unfold charge. fld.
  change (mem_fee _ a b) with fee. unfold is_word in *. aff g fee mc.
  - apply wp_ret. fail_dyn.
  - apply wp_bind. eapply wp_write_to; [fld; eassumption|lia|intros; unpow; lia|].
    intros m' Rm'. rewrite (read_bytes_off mf mo a b) by (intros; apply Hoff; assumption).
    rewrite (expand_off act mo a b) in Rm' by (intros; apply Hoff; assumption).
    apply wp_bind. unfold wp at 1, put_ret. apply wp_ret. unfold op_post. fld.
    split; [reflexivity|]. split; [lia|]. split; [lia|]. split; [lia|]. split; [intros; contradiction|]. split; [reflexivity|].
    split; fld; try assumption; try reflexivity.
    eapply rep_conv with (k := 2); [eassumption|lia|reflexivity|zl; lia].
Qed.

Lemma sim_mcopy : sim 1 (-3) 3 (fun top _ gas => op_mcopy S top gas) i_mcopy.
Proof.
  start. stk3. inv_forall'. unfold i_mcopy, op_mcopy. fld. rdt. rdt. rdt. costt a c g. costt b c g.
  pose proof (mr_nonneg _ _ _ Rm) as Hact. pose proof (fee_nonneg act a c Hact) as Hfee1.
  pose proof (fee_nonneg act b c Hact) as Hfee2. pose proof (Gmem_nonneg act Hact) as Hgm.
  assert (Gmem (expand (expand act b c) a c) - Gmem act =
          Z.max (Gmem (expand act a c) - Gmem act) (Gmem (expand act b c) - Gmem act)) as Emax.
  { unfold expand. destruct (c =? 0); [lia|].
    destruct (Z.max_spec (32 * words (b + c)) (32 * words (a + c))) as [[h1 h2]|[h1 h2]].
    - replace (Z.max (Z.max act (32 * words (b + c))) (32 * words (a + c))) with (Z.max act (32 * words (a + c))) by lia.
      pose proof (Gmem_mono (Z.max act (32 * words (b + c))) (Z.max act (32 * words (a + c)))). lia.
    - replace (Z.max (Z.max act (32 * words (b + c))) (32 * words (a + c))) with (Z.max act (32 * words (b + c))) by lia.
      pose proof (Gmem_mono (Z.max act (32 * words (a + c))) (Z.max act (32 * words (b + c)))). lia. }
  rewrite Emax.
  set (fee1 := Gmem (expand act a c) - Gmem act) in *. set (fee2 := Gmem (expand act b c) - Gmem act) in *.
  set (fee := Z.max fee1 fee2) in *. unfold is_word in *.
  pose proof (word_size_range mk) as Hws. change (2 ^ 59) with 576460752303423488 in Hws.
  apply wp_bind. apply wp_i64; [unpow; lia|].
  pose proof (copy_cost_test 3 (Z.max mc mc0) mk c fee g (word_size mk) ltac:(lia) ltac:(lia) ltac:(lia) ltac:(assumption)
    eq_refl ltac:(assumption) ltac:(lia)) as T.
  destruct (copy_ovf 3 (Z.max mc mc0) (word_size mk)) as [T3 T4]; [lia|lia|change (2 ^ 59) with 576460752303423488; lia|].
  rewrite T3 in T. cbv beta iota in T. destruct (add_overflow_i64 (3 * word_size mk) (Z.max mc mc0)) as [o2 dg].
  destruct T as [T1 T2].
  { intros. destruct Fyes as (-> & -> & ?); [lia|]. destruct Fyes0 as (-> & _ & ?); [lia|]. split; [reflexivity|]. split; [reflexivity|].
    intros. intuition lia. }
  { lia. }
  unfold charge. fld. rewrite T1 in T2. destruct (Z.ltb_spec g (3 * words c + fee)) as [Hlt|Hge].
  - apply orb_true_iff in T1. destruct o2; [apply wp_ret; fail_state|].
    destruct T1 as [T1|T1]; [discriminate|]. rewrite T1. apply Z.ltb_lt in T1. apply wp_ret. fail_dyn.
  - apply orb_false_iff in T1 as [-> T1]. rewrite T1. destruct (T2 eq_refl) as (-> & -> & Emc). clear T1 T2.
    pose proof (words_nonneg c ltac:(lia)).
    destruct Fyes as (_ & _ & Hoff); [lia|]. destruct Fyes0 as (_ & _ & Hoff0); [lia|].
    change (2 ^ 37) with 137438953472 in *.
    apply wp_bind. eapply wp_mem_copy; [fld; eassumption|lia|intros; unpow; lia|].
    intros m' Rm'. rewrite (read_bytes_off mf mo0 b c) in Rm' by (intros; apply Hoff0; assumption).
    rewrite (expand_off _ mo0 b c) in Rm' by (intros; apply Hoff0; assumption).
    rewrite (expand_off _ mo a c) in Rm' by (intros; apply Hoff; assumption).
    apply wp_ret. next_tac 3.
    eapply mem_rel_ext; [exact Rm'|]. intros. eapply write_bytes_off; [rewrite read_bytes_zlen; reflexivity|]. intros; apply Hoff; lia.
Qed.
End Sim.
