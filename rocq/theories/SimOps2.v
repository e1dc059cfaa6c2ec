(** Continuation of SimOps.v: copies from the host and return data, storage, stack and logs. *)
From Verif Require Import Base Host Uint256 Memory Opcodes Interp SpecEvm ArithFacts MemFacts JumpFacts SimBase SimOps.
From Coq Require Import Lia ZArith List Bool.

Section Sim2.
Context {W SH : Type}.
Variable S : sys W SH.
Variable shok : SH -> Prop.
Variable call : W -> message -> cresult * W.
Variable may : W -> SH -> message -> Prop.
Variable after : SH -> Prop.
Variables (msg : message) (rev : revision) (code targets : list Z) (cache : bool).

Notation H := (s_host S).
Notation E := (make_env msg rev (pad_code code) targets cache).
Notation mst := (mst W SH).
Notation frame := (frame W).
Notation outcome := (outcome W).
Notation sim := (sim (W:=W) (SH:=SH) shok code).

Hypothesis Hsys : sys_ok S shok call may after (msg_depth msg).
Hypothesis Hmsg : msg_ok msg.
Hypothesis Hcode : Forall is_byte code.
Hypothesis Hcode_len : zlen code <= 2 ^ 32.

Let Hhost := sok_host _ _ _ _ _ _ Hsys.

Lemma wp_get_w s (Q : W -> mst -> Prop) : Q (m_w s) s -> wp get_w s Q. Proof. intros h; exact h. Qed.
Lemma wp_get_mem s (Q : memory -> mst -> Prop) : Q (m_mem s) s -> wp get_mem s Q. Proof. intros h; exact h. Qed.
Lemma wp_get_ret s (Q : list Z -> mst -> Prop) : Q (m_ret s) s -> wp get_ret s Q. Proof. intros h; exact h. Qed.
Lemma wp_put_w w s (Q : unit -> mst -> Prop) : Q tt (set_w w s) -> wp (put_w w) s Q. Proof. intros h; exact h. Qed.
Lemma wp_put_mem m s (Q : unit -> mst -> Prop) : Q tt (set_mem m s) -> wp (put_mem m) s Q. Proof. intros h; exact h. Qed.
Lemma wp_put_ret r s (Q : unit -> mst -> Prop) : Q tt (set_ret r s) -> wp (put_ret r) s Q. Proof. intros h; exact h. Qed.
Lemma wp_add_ref d s (Q : unit -> mst -> Prop) : - 2 ^ 63 <= m_ref s + d < 2 ^ 63 ->
  Q tt (set_ref (m_ref s + d) s) -> wp (add_ref d) s Q.
Proof. intros h HQ. unfold wp, add_ref. rewrite i64_ok by assumption. exact HQ. Qed.

Lemma write_data_ext (mf : Z -> Z) o bs cs n i : 0 <= n -> data_bytes bs 0 n = cs -> write_bytes mf o (data_bytes bs 0 n) i = write_bytes mf o cs i.
Proof. intros _ ->. reflexivity. Qed.

Lemma sim_extcodecopy : sim 1 (-4) 4 (fun top _ gas => op_extcodecopy S E top gas) (i_extcodecopy H rev).
Proof.
  start. stk4. inv_forall'. unfold i_extcodecopy, op_extcodecopy. fld. rdt. rdt. rdt. rdt. costt b d g. plain_mem b d.
  unfold charge at 1. fld. change (mem_fee _ b d) with fee. unfold is_word in *. aff g fee mc.
  - apply wp_ret. fail_dyn.
  - assert (0 <= d < 137438953472) as Hd by (destruct (Z.eq_dec d 0); [lia|specialize (Hoff ltac:(assumption)); lia]).
    rewrite word_size_spec by (unpow; lia). pose proof (words_nonneg d ltac:(lia)) as Hwn. pose proof (words_bound d) as Hwb.
    change (to_address a) with (addr_of a).
    destruct (account_cost_sim S msg rev code targets cache (addr_of a) pc (g - fee) (a :: b :: c :: d :: stk0) mf act rt rf w)
      as (ac & w1 & Eac & Hac & Hwp).
    unfold with_gas at 1. fld. rewrite Eac. clear Eac.
    apply wp_bind. apply Hwp. clear Hwp. apply wp_bind. apply wp_i64; [unpow; lia|]. apply wp_bind. apply wp_i64; [unpow; lia|].
    apply wp_bind. apply wp_i64; [unpow; lia|]. unfold charge. fld.
    destruct (Z.ltb_spec (g - fee) (3 * words d + ac)), (Z.ltb_spec g (fee + (3 * words d + ac))); try lia.
    + apply wp_ret. fail_dyn.
    + destruct (Z.ltb_spec 0 d) as [Hd0|Hd0].
      * destruct Hoff as [-> Hoff]; [lia|]. cbn [andb]. rewrite andb_true_r.
        apply wp_bind. eapply wp_get_span; [eassumption|fld; eassumption|lia|intros; unpow; lia|]. intros m' Rm'.
        apply wp_bind. apply wp_get_w. fld.
        unfold kU64Max.
        assert ((c <=? 2 ^ 64 - 1) = (c <? 2 ^ 64)) as -> by (destruct (Z.leb_spec c (2^64-1)), (Z.ltb_spec c (2^64)); lia || reflexivity).
        set (written := if c <? 2 ^ 64 then h_copy_code (s_host S) w1 (addr_of a) (u64 c) d else []).
        assert (written = if c <? 2 ^ 64 then h_copy_code (s_host S) w1 (addr_of a) c d else []) as Ewr.
        { unfold written. destruct (Z.ltb_spec c (2 ^ 64)); [rewrite u64_small by lia; reflexivity|reflexivity]. }
        assert (zlen written <= d /\ Forall is_byte written) as [Hwl Hwby].
        { unfold written. destruct (c <? 2 ^ 64); [apply (hok_copy_code _ Hhost); lia|]. rewrite zlen_nil. split; [lia|constructor]. }
        rewrite <- Ewr. clearbody written. clear Ewr.
        apply wp_bind. apply wp_get_mem. fld. destruct (Z.leb_spec (zlen written) d); [|lia].
        assert (written ++ zeros (d - zlen written) = data_bytes written 0 d) as Ed.
        { rewrite data_bytes_pad by lia. cbn [Z.to_nat skipn]. rewrite Z.min_l by lia. rewrite firstn_all2 by (unfold zlen; lia). reflexivity. }
        rewrite Ed.
        destruct (mem_write_spec m' mf (expand act b d) b (data_bytes written 0 d) Rm') as (m2 & Em2 & Rm2).
        { apply data_bytes_byte; assumption. }
        { intros _. rewrite data_bytes_zlen. pose proof (expand_end act b d). lia. }
        apply wp_bind. eapply wp_lift; [exact Em2|]. apply wp_bind. apply wp_put_mem. fld. apply wp_ret. next_tac 4.
      * assert (d = 0) by lia. subst d. rewrite andb_false_r. apply wp_ret. next_tac 4.
        eapply mem_rel_ext; [exact Rm|]. intros. change (data_bytes [] 0 0) with (@nil Z). rewrite write_bytes_nil. reflexivity.
Qed.

Lemma sim_returndatasize : sim 1 1 0 (fun top _ _ => bind get_ret (fun r => op_push (zlen r) top)) (fun f => push (zlen (f_ret f)) f).
Proof.
  start. unfold push, op_push. fld. apply wp_bind, wp_get_ret. fld. pusht. apply wp_ret. next_tac 0. fwords.
  unfold is_word. pose proof (zlen_nonneg rt). unpow. lia.
Qed.

Lemma sim_returndatacopy : sim 1 (-3) 3 (fun top _ gas => op_returndatacopy S top gas) i_returndatacopy.
Proof.
  start. stk3. inv_forall'. unfold i_returndatacopy, op_returndatacopy. fld. rdt. rdt. rdt. costt a c g. plain_mem a c.
  unfold charge. fld. change (mem_fee _ a c) with fee. unfold is_word in *.
  pose proof (words_nonneg c ltac:(lia)) as Hwn.
  destruct (Z.ltb_spec g fee) as [Hno|Hyes].
  { specialize (Fno Hno). destruct (Z.ltb_spec g mc); [|lia]. destruct (Z.ltb_spec g (3 * words c + fee)); [|lia].
    apply wp_ret. fail_dyn. }
  destruct (Fyes Hyes) as (-> & -> & Hoff). change (2 ^ 37) with 137438953472 in *. destruct (Z.ltb_spec g fee); [lia|].
  assert (0 <= c < 137438953472) as Hc by (destruct (Z.eq_dec c 0); [lia|specialize (Hoff ltac:(assumption)); lia]).
  pose proof (words_bound c) as Hwb. rewrite word_size_spec by (unpow; lia).
  apply wp_bind. apply wp_i64; [unpow; lia|]. apply wp_bind. apply wp_i64; [unpow; lia|].
  destruct (Z.ltb_spec g (fee + 3 * words c)), (Z.ltb_spec g (3 * words c + fee)); try lia.
  - apply wp_ret. fail_dyn.
  - apply wp_bind, wp_get_ret. fld. unfold u_add, wrap.
    pose proof (zlen_nonneg rt).
    assert ((2 ^ 256 <=? b + c) || (zlen rt <? (b + c) mod 2 ^ 256) = (zlen rt <? b + c)) as ->.
    { destruct (Z.leb_spec (2 ^ 256) (b + c)); cbn [orb].
      - symmetry. apply Z.ltb_lt. unpow; lia.
      - rewrite Z.mod_small by lia. reflexivity. }
    destruct (Z.ltb_spec (zlen rt) (b + c)).
    + apply wp_ret. fail_state.
    + rewrite u64_small by (unpow; lia). destruct (Z.leb_spec b (zlen rt)); [|lia].
      apply wp_bind, wp_ret. apply wp_bind.
      eapply wp_read_from_ws; [eassumption|fld; eassumption|apply Forall_skipn'; assumption|lia|intros; unpow; lia|].
      intros m' Rm'. rewrite data_bytes_skip in Rm' by lia.
      rewrite (expand_off act mo a c) in Rm' by (intros; apply Hoff; assumption).
      apply wp_ret. next_tac 3.
      eapply mem_rel_ext; [exact Rm'|]. intros. eapply write_bytes_off; [rewrite data_bytes_zlen; reflexivity|]. intros; apply Hoff; lia.
Qed.

Lemma sim_blockhash : sim 1 0 1 (fun top _ _ => op_blockhash S top) (i_blockhash H).
Proof.
  start. stk1. inv_forall'. unfold i_blockhash, un, op_blockhash. fld. rdt. unfold is_word in *.
  pose proof (tok_number _ (hok_tx _ Hhost w)) as Hnum.
  set (cur := tx_number (h_tx_context (s_host S) w)) in *.
  assert (is_word 0) as H0w by (unfold is_word; unpow; lia).
  destruct (Z.ltb_spec (2 ^ 63 - 1) a).
  - assert ((cur - 256 <=? a) && (a <? cur) = false) as ->.
    { apply andb_false_iff. right. apply Z.ltb_ge. lia. }
    wrt. apply wp_ret. next_tac 0. fwords.
  - apply wp_bind, wp_get_w. fld. fold cur.
    assert (forall lo, (lo <=? a) && (a <? cur) = (cur - 256 <=? a) && (a <? cur) ->
      wp (if (lo <=? a) && (a <? cur) then bind (wr top 0 (h_block_hash (s_host S) w a)) (fun _ => cont)
          else bind (wr top 0 0) (fun _ => cont)) (mkMst buf m rt rf w sh)
        (op_post shok 1 0 top (mkFrame pc g (a :: stk0) mf act rt rf w) (mkMst buf m rt rf w sh)
           (yield ((if (cur - 256 <=? a) && (a <? cur) then h_block_hash (s_host S) w a else 0) :: stk0)
              (mkFrame pc g (a :: stk0) mf act rt rf w)))) as Hmain.
    { intros lo ->. destruct ((cur - 256 <=? a) && (a <? cur)).
      - wrt. apply wp_ret. next_tac 0. fwords. apply (hok_block_hash _ Hhost).
      - wrt. apply wp_ret. next_tac 0. fwords. }
    destruct (Z.ltb_spec cur 257).
    + apply wp_bind, wp_ret. apply Hmain. f_equal.
      destruct (Z.leb_spec 0 a), (Z.leb_spec (cur - 256) a); try reflexivity; lia.
    + apply wp_bind. apply wp_i64; [unpow; lia|]. apply Hmain. reflexivity.
Qed.

Lemma sim_selfbalance : sim 1 1 0 (fun top _ _ => op_selfbalance S E top) (fun f => push (h_get_balance (s_host S) (f_world f) (self msg)) f).
Proof.
  start. unfold push, op_selfbalance. fld. apply wp_bind, wp_get_w. fld. cbn [e_msg make_env]. fold (self msg).
  pusht. apply wp_ret. next_tac 0. fwords. apply (hok_get_balance _ Hhost).
Qed.

Lemma sim_blobhash : sim 1 0 1 (fun top _ _ => op_blobhash S top) (i_blobhash H).
Proof.
  start. stk1. inv_forall'. unfold i_blobhash, un, op_blobhash. fld. apply wp_bind, wp_get_w. fld. rdt. unfold is_word in *.
  pose proof (tok_blob_hashes _ (hok_tx _ Hhost w)) as Hbh. pose proof (tok_blob_count _ (hok_tx _ Hhost w)) as Hbc.
  set (hs := tx_blob_hashes (h_tx_context (s_host S) w)) in *.
  destruct (Z.ltb_spec a (zlen hs)).
  - rewrite s64_small by lia. rewrite (znth_some hs a 0) by lia. wrt. apply wp_ret. next_tac 0. fwords.
    rewrite Forall_forall in Hbh. apply Hbh, nth_In. unfold zlen in *. lia.
  - wrt. apply wp_ret. next_tac 0. fwords. unfold is_word; unpow; lia.
Qed.

Lemma sim_sload : sim 1 0 1 (fun top _ gas => op_sload S E top gas) (i_sload H msg rev).
Proof.
  start. stk1. inv_forall'. unfold i_sload, op_sload, slot_cost. fld. rdt. cbn [e_rev e_msg make_env]. fold (self msg).
  destruct (rev_ge rev Berlin).
  - fld. destruct (h_access_storage (s_host S) w (self msg) a) as [st w1] eqn:Ea.
    apply wp_bind, wp_bind. unfold wp at 1, host_access_storage. fld. rewrite Ea. apply wp_ret.
    assert ((if is_warm st then 100 else 2100) = match st with COLD => 2100 | WARM => 100 end) as -> by (destruct st; reflexivity).
    set (c := match st with COLD => 2100 | WARM => 100 end).
    assert (0 <= c) by (unfold c; destruct st; lia).
    unfold charge. fld. destruct (Z.ltb_spec g c).
    + apply wp_ret. fail_dyn.
    + apply wp_bind, wp_get_w. fld. wrt. apply wp_ret. next_tac 0. fwords. apply (hok_get_storage _ Hhost).
  - apply wp_bind, wp_ret. unfold charge. fld. destruct (Z.ltb_spec g 800).
    + apply wp_ret. fail_dyn.
    + apply wp_bind, wp_get_w. fld. wrt. apply wp_ret. next_tac 0. fwords. apply (hok_get_storage _ Hhost).
Qed.

Lemma sstore_gas_spec r cold st : sstore_gas r (negb cold) st = sstore_cost r cold st.
Proof. unfold sstore_gas, sstore_cost. destruct (rev_ge r Berlin), cold, st; reflexivity. Qed.
Lemma sstore_cost_range r cold st : 100 <= sstore_cost r cold st <= 22100.
Proof. unfold sstore_cost. destruct (rev_ge r Berlin), cold, st; cbn; lia. Qed.

Lemma wp_sstore_refunds r cold st s (Q : unit -> mst -> Prop) : Z.abs (m_ref s) < 2 ^ 62 ->
  Q tt (set_ref (m_ref s + sstore_refund r cold st) s) -> wp (add_refs (sstore_refunds r (negb cold) st)) s Q.
Proof.
  intros Hb HQ. destruct s as [buf m rt rf w sh].
  unfold sstore_refunds, sstore_refund, warm_cold_restored, restore_refund, clear_refund in *.
  assert (wp (add_refs []) (mkMst buf m rt (rf + 0) w sh) Q -> wp (add_refs []) (mkMst buf m rt rf w sh) Q) as H0r by (rewrite Z.add_0_r; auto).
  assert (forall d, Z.abs d < 30000 -> Q tt (mkMst buf m rt (rf + d) w sh) -> wp (add_refs [d]) (mkMst buf m rt rf w sh) Q) as H1.
  { intros d Hd HQd. cbn [add_refs]. apply wp_bind. apply wp_add_ref; [fld; cbn in Hb; unpow; lia|]. apply wp_ret. exact HQd. }
  assert (forall d d', Z.abs d < 30000 -> Z.abs d' < 30000 -> Q tt (mkMst buf m rt (rf + (d' + d)) w sh) -> wp (add_refs [d; d']) (mkMst buf m rt rf w sh) Q) as H2.
  { intros d d' Hd Hd' HQd. cbn [add_refs]. apply wp_bind. apply wp_add_ref; [fld; cbn in Hb; unpow; lia|].
    apply wp_bind. apply wp_add_ref; [fld; cbn in Hb; unpow; lia|]. apply wp_ret. fld.
    replace (rf + d + d') with (rf + (d' + d)) by lia. exact HQd. }
  destruct st; fld; try (apply H0r; exact HQ);
    first [apply H1; [destruct (rev_ge r Berlin), (rev_ge r London), cold; cbn; lia|]
          |apply H2; [destruct (rev_ge r Berlin), (rev_ge r London), cold; cbn; lia|destruct (rev_ge r Berlin), (rev_ge r London), cold; cbn; lia|]];
    unfold set_ref in HQ; cbn [m_buf m_mem m_ret m_ref m_w m_sh] in HQ;
    destruct (rev_ge r Berlin), (rev_ge r London), cold; cbn in *; exact HQ.
Qed.

Lemma sim_sstore : sim 1 (-2) 2 (fun top _ gas => op_sstore S E top gas) (i_sstore H msg rev).
Proof.
  start. stk2. inv_forall'. unfold i_sstore, op_sstore. fld.
  destruct (Z.leb_spec g 2300); [apply wp_ret; fail_state|].
  rdt. rdt. cbn [e_rev e_msg make_env]. fold (self msg).
  assert (forall cold w1,
    wp (bind (host_set_storage S (self msg) a b) (fun st =>
          if g <? sstore_gas rev (negb cold) st then dyn (sstore_gas rev (negb cold) st)
          else bind (add_refs (sstore_refunds rev (negb cold) st)) (fun _ => dyn (sstore_gas rev (negb cold) st))))
       (mkMst buf m rt rf w1 sh)
       (op_post shok 1 (-2) top (mkFrame pc g (a :: b :: stk0) mf act rt rf w) (mkMst buf m rt rf w sh)
          (let '(st, w2) := h_set_storage (s_host S) w1 (self msg) a b in
           charge (sstore_cost rev cold st) (mkFrame pc g (a :: b :: stk0) mf act rt rf w2)
             (fun f2 => yield stk0 (add_refund (sstore_refund rev cold st) f2))))) as Hmain.
  { intros cold w1. apply wp_bind. unfold wp at 1, host_set_storage. fld.
    destruct (h_set_storage (s_host S) w1 (self msg) a b) as [st w2]. rewrite sstore_gas_spec.
    pose proof (sstore_cost_range rev cold st). unfold charge. fld. destruct (Z.ltb_spec g (sstore_cost rev cold st)).
    - apply wp_ret. fail_dyn.
    - apply wp_bind. apply wp_sstore_refunds; [fld; unpow; lia|]. fld. apply wp_ret. next_tac 2. }
  destruct (rev_ge rev Berlin).
  - fld. destruct (h_access_storage (s_host S) w (self msg) a) as [st w1] eqn:Ea.
    apply wp_bind, wp_bind. unfold wp at 1, host_access_storage. fld. rewrite Ea. apply wp_ret.
    replace (is_warm st) with (negb (match st with COLD => true | WARM => false end)) by (destruct st; reflexivity).
    apply (Hmain (match st with COLD => true | WARM => false end)).
  - apply wp_bind, wp_ret. apply (Hmain true).
Qed.

Lemma sim_pc : sim 1 1 0 (fun top pc _ => op_pc top pc) (fun f => push (f_pc f) f).
Proof.
  start. unfold push, op_pc, op_push. fld. pusht. apply wp_ret. next_tac 0. fwords. unfold is_word. unpow. lia.
Qed.
Lemma sim_gas : sim 1 1 0 (fun top _ gas => op_push gas top) (fun f => push (f_gas f) f).
Proof.
  start. unfold push, op_push. fld. pusht. apply wp_ret. next_tac 0. fwords. unfold is_word.
  pose proof (mr_nonneg _ _ _ Rm) as Hact. pose proof (Gmem_nonneg act Hact). unpow. lia.
Qed.
Lemma sim_msize : sim 1 1 0 (fun top _ _ => op_msize top) (fun f => push (f_active f) f).
Proof.
  start. unfold push, op_msize, op_push. fld. apply wp_bind, wp_get_mem. fld. unfold mem_size. rewrite (mr_size _ _ _ Rm).
  pusht. apply wp_ret. next_tac 0. fwords. unfold is_word.
  pose proof (mr_nonneg _ _ _ Rm) as Hact. pose proof (size_small act Hact ltac:(lia)). change (2 ^ 37) with 137438953472 in *. unpow. lia.
Qed.
Lemma sim_tload : sim 1 0 1 (fun top _ _ => op_tload S E top) (i_tload H msg).
Proof.
  start. stk1. inv_forall'. unfold i_tload, un, op_tload. fld. cbn [e_msg make_env]. fold (self msg). rdt. apply wp_bind, wp_get_w. fld. wrt.
  apply wp_ret. next_tac 0. fwords. apply (hok_get_transient _ Hhost).
Qed.
Lemma sim_tstore : sim 1 (-2) 2 (fun top _ _ => op_tstore S E top) (i_tstore H msg).
Proof.
  start. stk2. inv_forall'. unfold i_tstore, op_tstore. fld. cbn [e_msg make_env]. fold (self msg). rdt. rdt. apply wp_bind, wp_get_w. fld.
  apply wp_bind, wp_put_w. fld. apply wp_ret. next_tac 2.
Qed.
Lemma sim_pop : sim 1 (-1) 1 (fun _ _ _ => cont) (fun f => match f_stack f with _ :: s => yield s f | _ => bad f end).
Proof. start. stk1. inv_forall'. fld. apply wp_ret. next_tac 1. Qed.
Lemma sim_jumpdest : sim 1 0 0 (fun _ _ _ => cont) next.
Proof. start. fld. apply wp_ret. next_tac 0. Qed.
Lemma sim_stop : sim 1 0 0 (fun _ _ _ => fail kDone) (fun f => Halt Stopped [] (with_pc (f_pc f + 1) f)).
Proof.
  start. apply wp_ret. unfold op_post. fld. split; [reflexivity|]. split; [lia|]. split; [lia|]. split; [lia|].
  split; [split; reflexivity|]. split; [intros h; contradiction|]. split; fld; try assumption; try reflexivity.
  rewrite Z.sub_0_r. assumption.
Qed.
Lemma sim_invalid : sim 1 0 0 (fun _ _ _ => fail kInvalid) (fun f => Fail InvalidInstruction f).
Proof. start. apply wp_ret. fail_state. Qed.

Lemma slice_data_bytes off n : 0 <= off -> 0 <= n -> off + n <= zlen code + 33 ->
  slice (pad_code code) off n = data_bytes code off n.
Proof.
  intros. rewrite slice_read; [|lia|lia|rewrite pad_code_zlen; lia].
  rewrite data_bytes_read. apply read_bytes_ext; [lia|]. intros. apply pad_code_at.
Qed.
Lemma sim_pushn n : 0 <= n <= 32 -> sim (1 + n) 1 0 (fun top pc _ => op_pushn E n top pc) (i_push code n).
Proof.
  intros Hn. start. unfold i_push, op_pushn, op_push. fld.
  apply wp_bind. eapply wp_lift.
  { apply push_value_spec; cbn [e_code make_env]; [apply pad_code_bytes; assumption|assumption|lia|rewrite pad_code_zlen; lia]. }
  cbn [e_code make_env]. rewrite slice_data_bytes by lia. pusht. apply wp_ret. next_tac 0. fwords.
  apply be_word; [apply data_bytes_byte; assumption|rewrite data_bytes_zlen; lia].
Qed.

Lemma Forall_nth_error {A} (P : A -> Prop) l i x : Forall P l -> nth_error l i = Some x -> P x.
Proof. intros HF Hn. rewrite Forall_forall in HF. apply HF. eapply nth_error_In; eassumption. Qed.

Lemma sim_dup n : 1 <= n <= 16 -> sim 1 1 n (fun top _ _ => op_dup n top) (i_dup n).
Proof.
  intros Hn. start. unfold i_dup, op_dup, push. fld.
  destruct (nth_error stk (Z.to_nat (n - 1))) as [v|] eqn:En.
  2:{ apply nth_error_None in En. exfalso. unfold zlen in *. lia. }
  apply wp_bind. eapply wp_rd; [eassumption| |].
  { unfold znth. destruct (Z.ltb_spec (n - 1) 0); [lia|]. exact En. }
  pusht. apply wp_ret. next_tac 0. fwords. eapply Forall_nth_error; eassumption.
Qed.

Lemma list_upd_split {A} (l : list A) k x : (k < length l)%nat -> list_upd l k x = firstn k l ++ x :: skipn (Datatypes.S k) l.
Proof.
  revert k; induction l; intros k Hk; cbn in Hk; [lia|]. destruct k; [reflexivity|]. cbn [list_upd firstn skipn app].
  rewrite IHl by lia. reflexivity.
Qed.

Lemma sim_swap n : 1 <= n <= 16 -> sim 1 0 (n + 1) (fun top _ _ => op_swap n top) (i_swap n).
Proof.
  intros Hn. start. stk1. inv_forall'. unfold i_swap, op_swap. fld. rewrite zlen_cons in *.
  destruct (nth_error stk0 (Z.to_nat (n - 1))) as [v|] eqn:En.
  2:{ apply nth_error_None in En. exfalso. unfold zlen in *. lia. }
  assert ((Z.to_nat (n - 1) < length stk0)%nat) as Hk by (unfold zlen in *; lia).
  rdt. apply wp_bind. eapply wp_rd; [eassumption| |].
  { unfold znth. destruct (Z.ltb_spec n 0); [lia|]. replace (Z.to_nat n) with (Datatypes.S (Z.to_nat (n - 1))) by lia. exact En. }
  wrt. apply wp_bind. eapply wp_wr; [fld; eassumption|zl; lia|]. intros buf2 R2.
  replace (Z.to_nat n) with (Datatypes.S (Z.to_nat (n - 1))) in R2 by lia. cbn [list_upd] in R2.
  rewrite list_upd_split in R2 by assumption. replace (Datatypes.S (Z.to_nat (n - 1))) with (Z.to_nat n) in R2 by lia.
  apply wp_ret. next_tac 0.
  constructor; [eapply Forall_nth_error; eassumption|]. apply Forall_app; split; [apply Forall_firstn'; assumption|].
  constructor; [assumption|apply Forall_skipn'; assumption].
Qed.

Lemma skipn_cons {A} (l : list A) i v : nth_error l i = Some v -> skipn i l = v :: skipn (Datatypes.S i) l.
Proof. revert i; induction l; intros [|i] h; cbn in h; try discriminate; [injection h as ->; reflexivity|]. cbn [skipn]. apply IHl. exact h. Qed.
Lemma wp_read_topics l top k : forall i s (Q : list Z -> mst -> Prop), rep (m_buf s) top l -> 0 <= i -> i + Z.of_nat k <= zlen l ->
  Q (firstn k (skipn (Z.to_nat i) l)) s -> wp (read_topics k top i) s Q.
Proof.
  induction k; intros i s Q R Hi Hl HQ; cbn [read_topics].
  - apply wp_ret. exact HQ.
  - assert (exists v, nth_error l (Z.to_nat i) = Some v) as [v Hv].
    { destruct (nth_error l (Z.to_nat i)) eqn:En; [eauto|]. apply nth_error_None in En. unfold zlen in *. lia. }
    apply wp_bind. eapply wp_rd; [eassumption| |].
    { unfold znth. destruct (Z.ltb_spec i 0); [lia|]. exact Hv. }
    apply wp_bind. apply IHk; [assumption|lia|lia|]. apply wp_ret.
    replace (v :: firstn k (skipn (Z.to_nat (i + 1)) l)) with (firstn (Datatypes.S k) (skipn (Z.to_nat i) l)); [exact HQ|].
    replace (Z.to_nat (i + 1)) with (Datatypes.S (Z.to_nat i)) by lia.
    rewrite (skipn_cons _ _ _ Hv). reflexivity.
Qed.

Lemma sim_log n : 0 <= n <= 4 -> sim 1 (- (n + 2)) (n + 2) (fun top _ gas => op_log S E n top gas) (i_log H msg n).
Proof.
  intros Hn. start. stk2. inv_forall'. unfold i_log, op_log. fld. rdt. rdt. costt a b g. plain_mem a b.
  unfold charge. fld. change (mem_fee _ a b) with fee. unfold is_word in *.
  destruct (Z.ltb_spec g fee) as [Hno|Hyes].
  { specialize (Fno Hno). destruct (Z.ltb_spec g mc); [|lia]. destruct (Z.ltb_spec g (8 * b + fee)); [|lia].
    apply wp_ret. fail_dyn. }
  destruct (Fyes Hyes) as (-> & -> & Hoff). change (2 ^ 37) with 137438953472 in *. destruct (Z.ltb_spec g fee); [lia|].
  assert (0 <= b < 137438953472) as Hb by (destruct (Z.eq_dec b 0); [lia|specialize (Hoff ltac:(assumption)); lia]).
  apply wp_bind. eapply wp_read_topics; [eassumption|lia|zl; lia|]. change (Z.to_nat 2) with 2%nat. cbn [skipn].
  rewrite s64_small by (unpow; lia). apply wp_bind. apply wp_i64; [unpow; lia|].
  destruct (Z.ltb_spec g (fee + 8 * b)), (Z.ltb_spec g (8 * b + fee)); try lia.
  - apply wp_ret. fail_dyn.
  - apply wp_bind. eapply wp_get_span; [eassumption|fld; eassumption|lia|intros; unpow; lia|]. intros m' Rm'.
    rewrite (read_bytes_off mf mo a b) by (intros; apply Hoff; assumption).
    rewrite (expand_off act mo a b) in Rm' by (intros; apply Hoff; assumption).
    apply wp_bind, wp_get_w. fld. apply wp_bind, wp_put_w. fld. apply wp_ret. cbn [e_msg make_env]. fold (self msg).
    unfold op_post; fld; split; [reflexivity|]; split; [lia|]; split; [lia|]; split; [lia|]; split; fld; try assumption; try reflexivity.
    + eapply rep_conv with (k := n + 2); [eassumption|lia| |zl; lia].
      replace (Z.to_nat (n + 2)) with (Datatypes.S (Datatypes.S (Z.to_nat n))) by lia. reflexivity.
    + apply Forall_skipn'. assumption.
Qed.

Lemma sim_selfdestruct : sim 1 (-1) 1 (fun top _ gas => op_selfdestruct S E top gas) (i_selfdestruct H msg rev).
Proof.
  start. stk1. inv_forall'. unfold i_selfdestruct, op_selfdestruct. fld. rdt. cbn [e_rev e_msg make_env]. fold (self msg).
  change (to_address a) with (addr_of a). apply wp_bind, wp_get_w. fld.
  assert (negb (h_get_balance (s_host S) w (self msg) =? 0) = (0 <? h_get_balance (s_host S) w (self msg))) as ->.
  { pose proof (hok_get_balance _ Hhost w (self msg)) as [? ?].
    destruct (Z.eqb_spec (h_get_balance (s_host S) w (self msg)) 0), (Z.ltb_spec 0 (h_get_balance (s_host S) w (self msg))); lia || reflexivity. }
  set (na := (0 <? h_get_balance (s_host S) w (self msg)) && negb (h_account_exists (s_host S) w (addr_of a))).
  assert (forall (cold : bool) (w1 : W) (dg : Z), dg = (if na then 25000 else 0) + (if cold then 2600 else 0) ->
    wp (if g <? dg then dyn dg
        else bind (host_selfdestruct S (self msg) (addr_of a)) (fun destructed =>
             bind (if destructed && negb (rev_ge rev London) then add_ref 24000 else ret tt) (fun _ =>
             ret (mkOpRes kDone dg))))
       (mkMst buf m rt rf w1 sh)
       (op_post shok 1 (-1) top (mkFrame pc g (a :: stk0) mf act rt rf w) (mkMst buf m rt rf w sh)
          (charge ((if na then 25000 else 0) + (if cold then 2600 else 0)) (mkFrame pc g (a :: stk0) mf act rt rf w1)
             (fun f2 =>
    let '(first, w) := h_selfdestruct (s_host S) (f_world f2) (self msg) (addr_of a) in
    let f3 := with_world w f2 in
    let f4 := if first && negb (rev_ge rev London) then add_refund 24000 f3 else f3 in
    Halt Stopped [] (with_pc (pc + 1) (with_stack stk0 f4)))))) as Hmain.
  { intros cold w1 dg ->. set (dg := (if na then 25000 else 0) + (if cold then 2600 else 0)).
    assert (0 <= dg) by (unfold dg; destruct na, cold; lia). unfold charge. fld. destruct (Z.ltb_spec g dg).
    - apply wp_ret. fail_dyn.
    - apply wp_bind. unfold wp at 1, host_selfdestruct. fld. destruct (h_selfdestruct (s_host S) w1 (self msg) (addr_of a)) as [first w2].
      destruct (first && negb (rev_ge rev London)).
      + apply wp_bind. apply wp_add_ref; [fld; unpow; lia|]. fld. apply wp_ret. unfold op_post. fld.
        split; [reflexivity|]. split; [lia|]. split; [lia|]. split; [lia|]. split; [split; reflexivity|].
        split; [intros h; contradiction|]. split; fld; try assumption; try reflexivity.
        eapply rep_conv with (k := 1); [eassumption|lia|reflexivity|zl; lia].
      + apply wp_bind, wp_ret. apply wp_ret. unfold op_post. fld.
        split; [reflexivity|]. split; [lia|]. split; [lia|]. split; [lia|]. split; [split; reflexivity|].
        split; [intros h; contradiction|]. split; fld; try assumption; try reflexivity.
        eapply rep_conv with (k := 1); [eassumption|lia|reflexivity|zl; lia]. }
  destruct (rev_ge rev Berlin).
  - fld. destruct (h_access_account (s_host S) w (addr_of a)) as [st w1] eqn:Ea.
    apply wp_bind, wp_bind. unfold wp at 1, host_access_account. fld. rewrite Ea. apply wp_ret.
    apply (Hmain (match st with COLD => true | WARM => false end)). destruct st, na; reflexivity.
  - apply wp_bind, wp_ret. apply (Hmain false). lia.
Qed.
End Sim2.
