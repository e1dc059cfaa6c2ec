(** Simulation of the creating and calling instructions. *)
From Verif Require Import Base Host Uint256 Memory Opcodes Interp SpecEvm SpecCall ArithFacts MemFacts JumpFacts SimBase SimOps SimOps2.
From Coq Require Import Lia ZArith List Bool.

Section SimCall.
Context {W SH : Type}.
Variable S : sys W SH.
Variable shok : SH -> Prop.
Variable call : W -> message -> cresult * W.
Variable may : W -> SH -> message -> Prop.
Variable after : SH -> Prop.
Variables (msg : message) (rev : revision) (code targets : list Z) (cache : bool).

Notation HH := (s_host S).
Notation E := (make_env msg rev (pad_code code) targets cache).
Notation mst := (mst W SH).
Notation frame := (frame W).
Notation outcome := (outcome W).
Notation sim := (sim (W:=W) (SH:=SH) shok code).

Hypothesis Hsys : sys_ok S shok call may after (msg_depth msg).
Hypothesis Hmsg : msg_ok msg.

Let Hhost := sok_host _ _ _ _ _ _ Hsys.

(** [sim] for an instruction that may ask for nested executions *)
Definition sim_ask (ask : frame -> option (W * message)) (len delta args : Z) (m : Z -> Z -> Z -> M (W:=W) (SH:=SH) op_result)
    (sp : frame -> outcome) : Prop :=
  forall top f s, rel shok top s f -> inv f -> args <= zlen (f_stack f) -> zlen (f_stack f) + delta <= 1024 ->
  0 <= f_pc f -> f_pc f + len <= zlen code + 33 -> (forall w m, ask f = Some (w, m) -> may w (m_sh s) m) ->
  wp (m top (f_pc f) (f_gas f)) s (op_post (match ask f with Some _ => after | None => shok end) len delta top f s (sp f)).
Lemma sim_sim_ask len delta args m sp : sim len delta args m sp -> sim_ask (fun _ => None) len delta args m sp.
Proof. intros h top f s R I H1 H2 H3 H4 _. apply h; assumption. Qed.

(** [op_post] for the outcome of a request *)
Definition op_postq (len delta top : Z) (f : frame) (s : mst) (q : request (W:=W)) : op_result -> mst -> Prop :=
  op_post (match asked q with Some _ => after | None => shok end) len delta top f s (answer call q).

Lemma wp_host_call m buf mm rt rf w sh (Q : cresult -> mst -> Prop) :
  shok sh -> may w sh m -> msg_ok m -> 0 <= msg_gas m -> msg_depth m = msg_depth msg + 1 ->
  (forall r w' sh', call w m = (r, w') -> call_ok m r -> after sh' -> Q r (mkMst buf mm rt rf w' sh')) ->
  wp (host_call S m) (mkMst buf mm rt rf w sh) Q.
Proof.
  intros Hsh Hmay Hm Hg Hd HQ. unfold wp, host_call. cbn [m_w m_sh m_buf m_mem m_ret m_ref].
  destruct (sok_call _ _ _ _ _ _ Hsys w sh m Hsh Hmay Hm Hg Hd) as (sh' & Ec & Hsh').
  rewrite Ec. cbn [rbind]. pose proof (sok_calls _ _ _ _ _ _ Hsys w m Hm Hg Hd) as Hc.
  destruct (call w m) as [r w']. apply HQ; auto.
Qed.

Lemma wp_spend ig g c k s (Q : op_result -> mst -> Prop) :
  0 <= ig - g -> 0 <= g -> ig < 2 ^ 62 -> 0 <= c <= kMaxGas -> ig - g + c < 2 ^ 63 ->
  (g < c -> Q (mkOpRes kRunning (ig - g + c)) s) ->
  (c <= g -> wp (k (g - c)) s Q) ->
  wp (spend ig g c k) s Q.
Proof.
  intros H1 H2 H3 H4 H5 Q1 Q2. unfold kMaxGas in *. unfold spend. apply wp_bind. apply wp_i64; [unpow; lia|].
  destruct (Z.ltb_spec (g - c) 0).
  - apply wp_bind. apply wp_i64; [unpow; lia|]. apply wp_ret. replace (ig - (g - c)) with (ig - g + c) by lia. apply Q1. lia.
  - apply Q2. lia.
Qed.

Lemma quot64 g : 0 <= g -> Z.quot g 64 = g / 64.
Proof. intros. apply Z.quot_div_nonneg; lia. Qed.
Lemma all_but_range g : 0 <= g -> 0 <= g - g / 64 <= g.
Proof. intros. pose proof (Z.div_pos g 64 ltac:(lia) ltac:(lia)). pose proof (Z.div_le_upper_bound g 64 g ltac:(lia) ltac:(lia)). lia. Qed.

Ltac sp := apply wp_spend; [lia|lia|unpow; lia|unfold kMaxGas; unpow; lia|unpow; lia| |].

Ltac fail_dynq := unfold op_postq; cbn [asked answer]; fail_dyn.
Ltac fail_stateq := unfold op_postq; cbn [asked answer]; fail_state.

Lemma sim_create (two : bool) : sim_ask (fun f => asked (q_create HH msg rev two f)) 1 (if two then -3 else -2) (if two then 4 else 3)
  (fun top _ gas => op_create S E two top gas) (i_create HH call msg rev two).
Proof.
  assert (forall (v off n salt : Z) (s0 l : list Z) top pc g mf act rt rf w buf m sh kk,
    rep buf top l -> kk = (if two then 3 else 2) -> skipn (Z.to_nat kk) l = (if two then salt else n) :: s0 -> kk < zlen l ->
    l = v :: off :: n :: (if two then salt :: s0 else s0) -> (two = false -> salt = 0) ->
    Forall is_word l -> mem_rel m mf act -> Forall is_byte rt -> zlen rt < 2 ^ 63 -> shok sh ->
    inv (mkFrame pc g l mf act rt rf w) ->
    (forall w1 m1, asked (q_create HH msg rev two (mkFrame pc g l mf act rt rf w)) = Some (w1, m1) -> may w1 sh m1) ->
    wp (op_create S E two top g) (mkMst buf m rt rf w sh)
      (op_postq 1 (- kk) top (mkFrame pc g l mf act rt rf w) (mkMst buf m rt rf w sh)
         (q_create HH msg rev two (mkFrame pc g l mf act rt rf w)))) as Hcore.
  { intros v off n salt s0 l top pc g mf act rt rf w buf m sh kk Rs Ekk Esk Hkl El Esalt Rw Rm Rrb Rrl Rsh I Hask.
    destruct I as [Ig Im Ir]. cbn [f_gas f_active f_refund] in *.
    assert (is_word v /\ is_word off /\ is_word n /\ is_word salt /\ Forall is_word s0) as (Hv & Ho & Hn & Hsa & Hs0).
    { subst l. inv_forall'. destruct two; inv_forall'; auto 10. rewrite Esalt by reflexivity. assert (is_word 0) by (unfold is_word; unpow; lia). auto 10. }
    assert (q_create HH msg rev two (mkFrame pc g l mf act rt rf w) =
      create_rq HH msg rev two (mkFrame pc g l mf act rt rf w) v off n salt s0) as ->.
    { rewrite q_create_eq. subst l. cbn [f_stack]. destruct two; [reflexivity|]. rewrite Esalt by reflexivity. reflexivity. }
    unfold create_rq.
    cbv zeta. unfold op_create. cbn [e_msg e_rev make_env]. unfold kMaxCallDepth.
    destruct (Z.ltb_spec 1024 (msg_depth msg)) as [Hd|Hd].
    { apply wp_ret. fail_stateq. }
    pose proof (mok_depth _ Hmsg) as Hdep.
    assert (znth l 0 = Some v /\ znth l 1 = Some off /\ znth l 2 = Some n) as (Z0 & Z1 & Z2) by (subst l; auto).
    apply wp_bind. eapply wp_rd; [eassumption|exact Z0|]. apply wp_bind. eapply wp_rd; [eassumption|exact Z1|].
    apply wp_bind. eapply wp_rd; [eassumption|exact Z2|].
    apply wp_bind. eapply wp_mono with (Q := fun a s => a = salt /\ s = mkMst buf m rt rf w sh).
    { destruct two; [eapply wp_rd; [eassumption|subst l; reflexivity|auto]|apply wp_ret; rewrite Esalt; auto]. }
    intros ? ? [-> ->]. rewrite <- Ekk.
    costt off n g. plain_mem off n.
    apply wp_spend; [lia|lia|unpow; lia|assumption|unfold kMaxGas in *; unpow; lia| |].
    { intros Hlt. unfold q_charge at 1. fld. change (mem_fee _ off n) with fee.
      destruct (Z.ltb_spec g fee); [|exfalso; destruct (Fyes ltac:(lia)); lia]. fail_dynq. }
    intros Hge. unfold q_charge at 1. cbn [f_gas with_gas]. change (mem_fee _ off n) with fee.
    destruct (Z.ltb_spec g fee) as [Hno|Hyes]; [specialize (Fno Hno); lia|].
    destruct (Fyes Hyes) as (-> & -> & Hoff). change (2 ^ 37) with 137438953472 in *. unfold is_word in Hn.
    assert (0 <= n < 137438953472) as Hnn by (destruct (Z.eq_dec n 0); [lia|specialize (Hoff ltac:(assumption)); lia]).
    rewrite word_size_spec by (unpow; lia). pose proof (words_nonneg n ltac:(lia)) as Hwn. pose proof (words_bound n) as Hwb.
    change (2 * 24576) with 49152.
    assert (Gmem act + fee = Gmem (expand act off n)) as Hgact by (unfold fee; lia).
    unfold with_gas at 1. cbn [f_pc f_gas f_stack f_mem f_active f_ret f_refund f_world].
    (* the part behind all charges *)
    assert (forall c, c = (if rev_ge rev Shanghai then 2 * words n else 0) + (if two then 6 * words n else 0) ->
     rev_ge rev Shanghai && (49152 <? n) = false -> 0 <= c -> c <= g - fee ->
     let f2 := mkFrame pc (g - fee - c) l mf act rt rf w in
     wp (bind (put_ret []) (fun _ =>
      bind (memory_get_span S mo n) (fun init_code =>
      bind get_w (fun w0 =>
      if negb (v =? 0) && (h_get_balance HH w0 (msg_recipient msg) <? v)
      then bind (wr (top + kk) 0 0) (fun _ => bind (lift (i64 (g - (g - fee - c)))) (fun d => dyn d))
      else
        let m := mkMsg (if two then K_CREATE2 else K_CREATE) 0 (msg_depth msg + 1)
                       (g - fee - c - Z.quot (g - fee - c) 64) 0 (msg_recipient msg) init_code v salt 0 None in
        bind (host_call S m) (fun result =>
        bind (if status_eqb (cr_status result) EVMC_REVERT then put_ret (cr_output result) else ret tt) (fun _ =>
        bind (lift (i64 (msg_gas m - cr_gas_left result))) (fun used =>
        bind (lift (i64 (g - fee - c - used))) (fun gas =>
        bind (add_ref (cr_gas_refund result)) (fun _ =>
        bind (wr (top + kk) 0 (if status_eqb (cr_status result) EVMC_SUCCESS then cr_create_address result else 0)) (fun _ =>
        bind (lift (i64 (g - gas))) (fun d =>
        dyn d)))))))))))
      (mkMst buf m rt rf w sh)
      (op_postq 1 (- kk) top (mkFrame pc g l mf act rt rf w) (mkMst buf m rt rf w sh)
        (let f3 := touch off n (with_ret [] f2) in
    if h_get_balance HH (f_world f3) (self msg) <? v then Now (yield (0 :: s0) f3)
    else
      let g := all_but_64th (f_gas f3) in
      let m := mkMsg (if two then K_CREATE2 else K_CREATE) 0 (msg_depth msg + 1) g 0 (self msg)
                     (read_bytes (f_mem f3) off n) v salt 0 None in
      Ask (f_world f3) m (fun (r : cresult) (w : W) =>
      let f4 := with_world w (add_refund (cr_gas_refund r)
                  (with_gas (f_gas f3 - g + cr_gas_left r) f3)) in
      match cr_status r with
      | EVMC_SUCCESS => yield (cr_create_address r :: s0) f4
      | EVMC_REVERT => yield (0 :: s0) (with_ret (cr_output r) f4)
      | _ => yield (0 :: s0) f4
      end)))) as Hfin.
    { intros c Ec Einit Hc0 Hc1. cbv zeta. fld. fold (self msg).
      apply wp_bind, wp_put_ret. fld.
      apply wp_bind. eapply wp_get_span; [eassumption|fld; eassumption|lia|intros; unpow; lia|]. intros m' Rm'. fld.
      rewrite (read_bytes_off mf mo off n) by (intros; apply Hoff; assumption).
      rewrite (expand_off act mo off n) in Rm' by (intros; apply Hoff; assumption).
      apply wp_bind, wp_get_w. fld.
      assert (negb (v =? 0) && (h_get_balance HH w (self msg) <? v) = (h_get_balance HH w (self msg) <? v)) as ->.
      { destruct (Z.eqb_spec v 0) as [->|]; [|reflexivity]. cbn [negb andb]. symmetry. apply Z.ltb_ge.
        apply (hok_get_balance _ Hhost w (self msg)). }
      assert (rep buf (top + kk) ((if two then salt else n) :: s0)) as Rk.
      { eapply rep_conv with (k := kk); [exact Rs|reflexivity|auto|]. destruct two; lia. }
      destruct (Z.ltb_spec (h_get_balance HH w (self msg)) v) as [Hbal|Hbal].
      - apply wp_bind. eapply wp_wr; [fld; exact Rk|zl; lia|]. intros b' Rb. tonat Rb. fld.
        apply wp_bind. apply wp_i64; [unpow; lia|]. apply wp_ret.
        unfold op_postq, op_post; cbn [asked answer]; fld; split; [reflexivity|]; split; [lia|]; split; [lia|]; split; [lia|]; split; fld; try assumption; try reflexivity.
        + replace (top - - kk) with (top + kk) by lia. assumption.
        + constructor; [unfold is_word; unpow; lia|assumption].
        + constructor.
      - cbn [msg_gas]. rewrite quot64 by lia. unfold all_but_64th. pose proof (all_but_range (g - fee - c) ltac:(lia)) as Hab.
        apply wp_bind. apply wp_host_call.
        + assumption.
        + apply Hask. erewrite create_asks with (v := v) (off := off) (n := n) (salt := salt) (s := s0);
          [|subst l; reflexivity|exact Esalt|exact Hd|exact Hyes|exact Einit|cbn [f_gas]; rewrite <- Ec; exact Hc1|exact Hbal].
          rewrite <- Ec. reflexivity.
        + constructor; cbn [msg_flags msg_depth msg_gas msg_recipient msg_sender msg_input msg_value]; try (unpow; lia).
          * unfold is_addr; unpow; lia.
          * apply (mok_recipient _ Hmsg).
          * eapply mem_rel_read_byte; [exact Rm|unfold is_word in Ho; lia].
          * rewrite read_bytes_zlen by lia. unpow; lia.
          * assumption.
        + cbn [msg_gas]. lia.
        + reflexivity.
        + intros r w' sh' Ecall Hcall Hsh'. cbn [m_w m_buf m_mem m_ret m_ref m_sh set_ret set_mem] in Ecall. unfold op_postq. cbn [asked answer f_world]. rewrite Ecall. destruct Hcall as [Kg Kr Ko Kl Ka]. cbn [msg_gas] in Kg, Kr.
          set (mg := g - fee - c - (g - fee - c) / 64) in *.
          assert (forall rt1, wp
  (bind (lift (i64 (mg - cr_gas_left r))) (fun used : Z =>
      bind (lift (i64 (g - fee - c - used))) (fun gas : Z =>
         bind (add_ref (cr_gas_refund r)) (fun _ : unit =>
            bind (wr (top + kk) 0 (if status_eqb (cr_status r) EVMC_SUCCESS then cr_create_address r else 0))
              (fun _ : unit => bind (lift (i64 (g - gas))) (fun d : Z => dyn d))))))
    (mkMst buf m' rt1 rf w' sh')
    (fun a s' => o_state a = kRunning /\ 0 <= o_dyn a <= g /\ g - fee - c - mg + cr_gas_left r = g - o_dyn a /\
        exists buf', s' = mkMst buf' m' rt1 (rf + cr_gas_refund r) w' sh' /\
          rep buf' (top + kk) ((if status_eqb (cr_status r) EVMC_SUCCESS then cr_create_address r else 0) :: s0))) as Htail.
          { intros rt1. apply wp_bind. apply wp_i64; [unpow; lia|]. apply wp_bind. apply wp_i64; [unpow; lia|].
            apply wp_bind. apply wp_add_ref; [fld; unpow; lia|]. fld.
            apply wp_bind. eapply wp_wr; [fld; exact Rk|zl; lia|]. intros b' Rb. tonat Rb. fld.
            apply wp_bind. apply wp_i64; [unpow; lia|]. apply wp_ret. cbn [o_state o_dyn].
            split; [reflexivity|]. split; [lia|]. split; [lia|]. eexists; split; [reflexivity|exact Rb]. }
          assert (is_word (cr_create_address r)) as Hcw by (unfold is_addr, is_word in *; unpow; lia).
          assert (is_word 0) as H0w by (unfold is_word; unpow; lia).
          apply wp_bind. destruct (cr_status r) eqn:Est; cbn [status_eqb]; cbn [status_eqb] in Htail;
          first [apply wp_ret | apply wp_put_ret]; fld;
          (eapply wp_mono; [apply Htail|]); cbv beta;
          intros ra s' (T1 & T2 & T3 & buf' & -> & T4);
          (unfold op_post; fld; split; [assumption|]; split; [lia|]; split; [lia|]; split; [lia|]; split; fld; try assumption; try reflexivity;
            [replace (top - - kk) with (top + kk) by lia; assumption|constructor; assumption|try constructor ..]). }
    assert (forall c, c = (if rev_ge rev Shanghai then 2 * words n else 0) -> rev_ge rev Shanghai && (49152 <? n) = false ->
      0 <= c -> c <= g - fee -> wp (let finish := (fun gas => bind (put_ret []) (fun _ =>
      bind (memory_get_span S mo n) (fun init_code =>
      bind get_w (fun w0 =>
      if negb (v =? 0) && (h_get_balance HH w0 (msg_recipient msg) <? v)
      then bind (wr (top + kk) 0 0) (fun _ => bind (lift (i64 (g - gas))) (fun d => dyn d))
      else
        let m := mkMsg (if two then K_CREATE2 else K_CREATE) 0 (msg_depth msg + 1)
                       (gas - Z.quot gas 64) 0 (msg_recipient msg) init_code v salt 0 None in
        bind (host_call S m) (fun result =>
        bind (if status_eqb (cr_status result) EVMC_REVERT then put_ret (cr_output result) else ret tt) (fun _ =>
        bind (lift (i64 (msg_gas m - cr_gas_left result))) (fun used =>
        bind (lift (i64 (gas - used))) (fun gas =>
        bind (add_ref (cr_gas_refund result)) (fun _ =>
        bind (wr (top + kk) 0 (if status_eqb (cr_status result) EVMC_SUCCESS then cr_create_address result else 0)) (fun _ =>
        bind (lift (i64 (g - gas))) (fun d =>
        dyn d))))))))))) in if two then bind (lift (i64 (6 * words n))) (fun hc => spend g (g - fee - c) hc finish) else finish (g - fee - c)) (mkMst buf m rt rf w sh)
      (op_postq 1 (- kk) top (mkFrame pc g l mf act rt rf w) (mkMst buf m rt rf w sh)
        (q_charge (c + (if two then 6 * words n else 0)) (mkFrame pc (g - fee) l mf act rt rf w) (fun f2 =>
          let f3 := touch off n (with_ret [] f2) in
    if h_get_balance HH (f_world f3) (self msg) <? v then Now (yield (0 :: s0) f3)
    else
      let g := all_but_64th (f_gas f3) in
      let m := mkMsg (if two then K_CREATE2 else K_CREATE) 0 (msg_depth msg + 1) g 0 (self msg)
                     (read_bytes (f_mem f3) off n) v salt 0 None in
      Ask (f_world f3) m (fun (r : cresult) (w : W) =>
      let f4 := with_world w (add_refund (cr_gas_refund r)
                  (with_gas (f_gas f3 - g + cr_gas_left r) f3)) in
      match cr_status r with
      | EVMC_SUCCESS => yield (cr_create_address r :: s0) f4
      | EVMC_REVERT => yield (0 :: s0) (with_ret (cr_output r) f4)
      | _ => yield (0 :: s0) f4
      end))))) as Hafter.
    { intros c Ec Einit Hc0 Hc1. cbv zeta. unfold q_charge. cbn [f_gas]. destruct two eqn:Etwo.
      - apply wp_bind. apply wp_i64; [unpow; lia|].
        apply wp_spend; [lia|lia|unpow; lia|unfold kMaxGas; unpow; lia|unpow; lia| |].
        + intros. destruct (Z.ltb_spec (g - fee) (c + 6 * words n)); [|lia]. fail_dynq.
        + intros. destruct (Z.ltb_spec (g - fee) (c + 6 * words n)); [lia|].
          replace (g - fee - c - 6 * words n) with (g - fee - (c + 6 * words n)) by lia.
          apply (Hfin (c + 6 * words n)); [lia|exact Einit|lia|lia].
      - rewrite Z.add_0_r. destruct (Z.ltb_spec (g - fee) c); [lia|]. apply (Hfin c); [lia|exact Einit|lia|lia]. }
    cbv zeta in Hafter. destruct (rev_ge rev Shanghai) eqn:Esh; cbn [andb].
    - destruct (Z.ltb_spec 49152 n).
      + apply wp_bind. apply wp_i64; [unpow; lia|]. apply wp_ret. fail_stateq.
      + apply wp_bind. apply wp_i64; [unpow; lia|].
        apply wp_spend; [lia|lia|unpow; lia|unfold kMaxGas; unpow; lia|unpow; lia| |].
        * intros. unfold q_charge. cbn [f_gas]. destruct (Z.ltb_spec (g - fee) (2 * words n + (if two then 6 * words n else 0))); [|destruct two; lia]. fail_dynq.
        * intros. apply (Hafter (2 * words n)); [reflexivity|reflexivity|lia|lia].
    - specialize (Hafter 0 eq_refl eq_refl ltac:(lia) ltac:(lia)). replace (g - fee - 0) with (g - fee) in Hafter by lia. exact Hafter. }
  intros top f s R I Hargs Hroom Hpc Hpc2 Hask.
  destruct f as [pc g stk mf act rt rf w], s as [buf m rt' rf' w' sh].
  destruct R as [Rs Rw Rm Rr Rrb Rrl Rf Rwd Rsh].
  cbn [f_pc f_gas f_stack f_mem f_active f_ret f_refund f_world m_buf m_mem m_ret m_ref m_w m_sh] in *; subst rt' rf' w'.
  destruct two.
  - stk4. apply (Hcore a b c d stk0 (a :: b :: c :: d :: stk0)) with (kk := 3); auto; try discriminate; zl; lia.
  - stk3. apply (Hcore a b c 0 stk0 (a :: b :: c :: stk0)) with (kk := 2); auto; zl; lia.
Qed.

Definition call_opcode (k : call_op) : opcode :=
  match k with OpCall => CALL | OpCallCode => CALLCODE | OpDelegateCall => DELEGATECALL | OpStaticCall => STATICCALL end.
Definition has_v (k : call_op) : bool := match k with OpCall | OpCallCode => true | _ => false end.

Lemma fee_max a o1 n1 o2 n2 : 0 <= a ->
  Gmem (expand (expand a o1 n1) o2 n2) - Gmem a = Z.max (Gmem (expand a o1 n1) - Gmem a) (Gmem (expand a o2 n2) - Gmem a).
Proof.
  intros Ha. pose proof (fee_nonneg a o1 n1 Ha). pose proof (fee_nonneg a o2 n2 Ha).
  unfold expand in *. destruct (n1 =? 0), (n2 =? 0); try lia.
  destruct (Z.max_spec (32 * words (o1 + n1)) (32 * words (o2 + n2))) as [[h1 h2]|[h1 h2]].
  - replace (Z.max (Z.max a (32 * words (o1 + n1))) (32 * words (o2 + n2))) with (Z.max a (32 * words (o2 + n2))) by lia.
    pose proof (Gmem_mono (Z.max a (32 * words (o1 + n1))) (Z.max a (32 * words (o2 + n2)))). lia.
  - replace (Z.max (Z.max a (32 * words (o1 + n1))) (32 * words (o2 + n2))) with (Z.max a (32 * words (o1 + n1))) by lia.
    pose proof (Gmem_mono (Z.max a (32 * words (o2 + n2))) (Z.max a (32 * words (o1 + n1)))). lia.
Qed.
Lemma expand_comm a o1 n1 o2 n2 : expand (expand a o1 n1) o2 n2 = expand (expand a o2 n2) o1 n1.
Proof. unfold expand. destruct (n1 =? 0), (n2 =? 0); lia. Qed.
Lemma expand_sub a o n n' : 0 <= n' <= n -> expand (expand a o n) o n' = expand a o n.
Proof.
  intros. unfold expand. destruct (Z.eqb_spec n' 0); [reflexivity|]. destruct (Z.eqb_spec n 0); [lia|].
  pose proof (words_le (o + n') (o + n)). lia.
Qed.
Lemma expand_in a o n n' b : 0 <= n' <= n -> expand a o n <= b -> expand b o n' = b.
Proof.
  intros ? Hb. unfold expand in *. destruct (Z.eqb_spec n' 0); [reflexivity|]. destruct (Z.eqb_spec n 0); [lia|].
  pose proof (words_le (o + n') (o + n)). lia.
Qed.

Lemma wp_grow off n mf a s (Q : unit -> mst -> Prop) :
  mem_rel (m_mem s) mf a -> 0 <= n -> (n <> 0 -> 0 <= off /\ off + n < 2 ^ 62) ->
  (forall m', mem_rel m' mf (expand a off n) -> Q tt (set_mem m' s)) ->
  wp (memory_grow off n) s Q.
Proof.
  intros HR Hn Ho HQ. destruct (mem_grow_spec _ _ _ off n HR Hn Ho) as (m' & Em & HR').
  unfold wp, memory_grow. rewrite Em. cbn [rbind]. auto.
Qed.

Lemma data_bytes_firstn d n : 0 <= n <= zlen d -> data_bytes d 0 n = firstn (Z.to_nat n) d.
Proof.
  intros. rewrite data_bytes_pad by lia. cbn [Z.to_nat skipn]. rewrite Z.min_r by lia. rewrite Z.sub_diag.
  unfold zeros. cbn [Z.to_nat repeat]. rewrite app_nil_r. reflexivity.
Qed.

Definition call_tail (k : call_op) (top ig gas account value greq ioff isz ooff osz : Z) : M (W:=W) (SH:=SH) op_result :=
  let has_value := negb (value =? 0) in
    bind (put_ret []) (fun _ =>
    bind (memory_grow ooff osz) (fun _ =>
    bind (memory_get_span S ioff isz) (fun input_data =>
    let call_gas := if greq <? kMaxGas then s64 greq else kMaxGas in
    let base_gas := Z.min call_gas (gas - Z.quot gas 64) in
    bind (if has_value then lift (i64 (base_gas + 2300)) else ret base_gas) (fun msg_gas0 =>
    bind (if has_value then lift (i64 (gas + 2300)) else ret gas) (fun gas =>
    let m := call_message msg k account value msg_gas0 input_data in
    bind get_w (fun w =>
    if has_value && (h_get_balance HH w (msg_recipient msg) <? value)
    then bind (wr top 0 0) (fun _ => bind (lift (i64 (ig - gas))) (fun d => dyn d))
    else
      bind (host_call S m) (fun result =>
      bind (put_ret (cr_output result)) (fun _ =>
      bind (if 0 <? zlen (cr_output result)
       then memory_read_from_with_size S (cr_output result) ooff
              (Z.min osz (zlen (cr_output result)))
       else ret tt) (fun _ =>
      bind (lift (i64 (msg_gas0 - cr_gas_left result))) (fun used =>
      spend ig gas used (fun gas =>
      bind (add_ref (cr_gas_refund result)) (fun _ =>
      bind (wr top 0 (b2w (status_eqb (cr_status result) EVMC_SUCCESS))) (fun _ =>
      bind (lift (i64 (ig - gas))) (fun d => dyn d)))))))))))))).

Definition call_body (k : call_op) (top gas : Z) : M (W:=W) (SH:=SH) op_result :=
  if kMaxCallDepth <? msg_depth msg then fail kErrorCall
  else
    bind (rd top 0) (fun greq =>
    bind (rd top 1) (fun t1 =>
    let account := to_address t1 in
    bind (if has_v k then rd top 2 else ret 0) (fun value =>
    let kk := if has_v k then 3 else 2 in
    bind (rd top kk) (fun ioff256 =>
    bind (rd top (kk + 1)) (fun isz256 =>
    bind (rd top (kk + 2)) (fun ooff256 =>
    bind (rd top (kk + 3)) (fun osz256 =>
    let top := top + (kk + 3) in
    let has_value := negb (value =? 0) in
    bind (mem_cost ioff256 isz256) (fun '(icost, ioff, isz) =>
    bind (mem_cost ooff256 osz256) (fun '(ocost, ooff, osz) =>
    spend gas gas (Z.max icost ocost) (fun gas1 =>
    if match k with OpCall => has_value && static msg | _ => false end then fail kErrorStaticCall
    else
    bind (account_access_cost S E account) (fun acost =>
    let positive_value_cost := if has_value then 9000 else 0 in
    bind get_w (fun w =>
    let new_cost := match k with OpCallCode => 0 | _ => if has_value && negb (h_account_exists HH w account) then 25000 else 0 end in
    spend gas gas1 (acost + positive_value_cost + new_cost) (fun gas2 =>
    call_tail k top gas gas2 account value greq ioff isz ooff osz))))))))))))).

Lemma static_flag fl : 0 <= fl -> negb (Z.land fl EVMC_STATIC =? 0) = Z.odd fl.
Proof.
  intros. unfold EVMC_STATIC. change 1 with (Z.ones 1). rewrite Z.land_ones by lia. change (2 ^ 1) with 2.
  rewrite Zmod_odd. destruct (Z.odd fl); reflexivity.
Qed.

Lemma call_body_eq k top gas : op_call S E (call_opcode k) top gas = call_body k top gas.
Proof.
  unfold op_call, call_body, call_tail, call_message, static, self. cbn [e_msg e_rev e_static make_env].
  rewrite static_flag by apply (mok_flags _ Hmsg). destruct k; reflexivity.
Qed.

Notation call_rq := (call_rq HH msg rev).

Lemma sim_call k : sim_ask (fun f => asked (q_call HH msg rev k f)) 1 (if has_v k then -6 else -5) (if has_v k then 7 else 6)
  (fun top _ gas => op_call S E (call_opcode k) top gas) (i_call HH call msg rev k).
Proof.
  assert (forall (greq a v io isz oo osz : Z) (s0 l : list Z) top pc g mf act rt rf w buf m sh kk,
    rep buf top l -> kk = (if has_v k then 6 else 5) -> 
    l = greq :: a :: (if has_v k then v :: io :: isz :: oo :: osz :: s0 else io :: isz :: oo :: osz :: s0) ->
    (has_v k = false -> v = 0) ->
    Forall is_word l -> mem_rel m mf act -> Forall is_byte rt -> zlen rt < 2 ^ 63 -> shok sh ->
    inv (mkFrame pc g l mf act rt rf w) ->
    (forall w1 m1, asked (q_call HH msg rev k (mkFrame pc g l mf act rt rf w)) = Some (w1, m1) -> may w1 sh m1) ->
    wp (op_call S E (call_opcode k) top g) (mkMst buf m rt rf w sh)
      (op_postq 1 (- kk) top (mkFrame pc g l mf act rt rf w) (mkMst buf m rt rf w sh)
         (call_rq k (mkFrame pc g l mf act rt rf w) greq a v io isz oo osz s0))) as Hcore.
  { intros greq a v io isz oo osz s0 l top pc g mf act rt rf w buf m sh kk Rs Ekk El Ev Rw Rm Rrb Rrl Rsh I Hask.
    destruct I as [Ig Im Ir]. cbn [f_gas f_active f_refund] in *.
    assert (is_word greq /\ is_word a /\ is_word v /\ is_word io /\ is_word isz /\ is_word oo /\ is_word osz /\ Forall is_word s0)
      as (Hgr & Ha & Hv & Hio & Hisz & Hoo & Hosz & Hs0).
    { subst l. inv_forall'. destruct (has_v k); inv_forall'; [auto 20|]. rewrite Ev by reflexivity.
      assert (is_word 0) by (unfold is_word; unpow; lia). auto 20. }
    rewrite call_body_eq. unfold call_body, SpecCall.call_rq. cbv zeta. unfold kMaxCallDepth.
    destruct (Z.ltb_spec 1024 (msg_depth msg)) as [Hd|Hd].
    { apply wp_ret. fail_stateq. }
    pose proof (mok_depth _ Hmsg) as Hdep.
    apply wp_bind. eapply wp_rd; [eassumption|subst l; reflexivity|]. apply wp_bind. eapply wp_rd; [eassumption|subst l; reflexivity|].
    apply wp_bind. eapply wp_mono with (Q := fun a s => a = v /\ s = mkMst buf m rt rf w sh).
    { destruct (has_v k); [eapply wp_rd; [eassumption|subst l; reflexivity|auto]|apply wp_ret; rewrite Ev; auto]. }
    intros ? ? [-> ->].
    apply wp_bind. eapply wp_rd with (v := io); [eassumption|subst l; destruct (has_v k); reflexivity|].
    apply wp_bind. eapply wp_rd with (v := isz); [eassumption|subst l; destruct (has_v k); reflexivity|].
    apply wp_bind. eapply wp_rd with (v := oo); [eassumption|subst l; destruct (has_v k); reflexivity|].
    apply wp_bind. eapply wp_rd with (v := osz); [eassumption|subst l; destruct (has_v k); reflexivity|].
    replace ((if has_v k then 3 else 2) + 3) with kk by (destruct (has_v k); lia).
    costt io isz g. costt oo osz g. cbn [f_active].
    pose proof (mr_nonneg _ _ _ Rm) as Hact. pose proof (fee_nonneg act io isz Hact) as Hfee1.
    pose proof (fee_nonneg act oo osz Hact) as Hfee2. pose proof (Gmem_nonneg act Hact) as Hgm.
    pose proof (fee_max act io isz oo osz Hact) as Emax.
    set (act' := expand (expand act io isz) oo osz) in *.
    set (fee1 := Gmem (expand act io isz) - Gmem act) in *. set (fee2 := Gmem (expand act oo osz) - Gmem act) in *.
    set (fee := Gmem act' - Gmem act) in *. assert (Efee : fee = Gmem act' - Gmem act) by reflexivity.
    apply wp_spend; [lia|lia|unpow; lia|unfold kMaxGas in *; lia|unfold kMaxGas in *; unpow; lia| |].
    { intros Hlt. unfold q_charge at 1. cbn [f_gas]. fold fee.
      destruct (Z.ltb_spec g fee); [|exfalso; destruct (Fyes ltac:(lia)); destruct (Fyes0 ltac:(lia)); lia]. fail_dynq. }
    intros Hge. unfold q_charge at 1. cbn [f_gas]. fold fee.
    destruct (Z.ltb_spec g fee) as [Hno|Hyes]; [exfalso; destruct (Z_lt_le_dec g fee1) as [h|h]; [specialize (Fno h)|specialize (Fno0 ltac:(lia))]; lia|].
    destruct (Fyes ltac:(lia)) as (-> & -> & Hoff). destruct (Fyes0 ltac:(lia)) as (-> & -> & Hoff0).
    assert (0 <= fee) as Hfee0 by lia. rewrite <- Emax in *. clear Emax Fyes Fyes0 Fno Fno0 Fz Fz0 Fc Fc0 Hfee1 Hfee2.
    clearbody fee fee1 fee2. 
    change (2 ^ 37) with 137438953472 in *. unfold is_word in Hisz, Hosz.
    assert (0 <= isz < 137438953472) as Hin by (clear - Hoff Hisz Hio; destruct (Z.eq_dec isz 0); [lia|specialize (Hoff ltac:(assumption)); unfold is_word in *; lia]).
    assert (0 <= osz < 137438953472) as Hon by (clear - Hoff0 Hosz Hoo; destruct (Z.eq_dec osz 0); [lia|specialize (Hoff0 ltac:(assumption)); unfold is_word in *; lia]).
    assert (forall n', 0 <= n' <= isz -> n' <> 0 -> 0 <= mo /\ mo + n' < 2 ^ 62) as Po.
    { clear - Hoff Hin Hio. intros n' ? ?. destruct Hoff as [-> ?]; [lia|]. unfold is_word in *. unpow. lia. }
    assert (forall n', 0 <= n' <= osz -> n' <> 0 -> 0 <= mo0 /\ mo0 + n' < 2 ^ 62) as Po0.
    { clear - Hoff0 Hon Hoo. intros n' ? ?. destruct Hoff0 as [-> ?]; [lia|]. unfold is_word in *. unpow. lia. }
    assert (read_bytes mf mo isz = read_bytes mf io isz) as E1 by (apply read_bytes_off; intros; apply Hoff; assumption).
    assert (forall x, expand x mo isz = expand x io isz) as E2 by (intros; apply expand_off; intros; apply Hoff; assumption).
    assert (forall x n', 0 <= n' <= osz -> expand x mo0 n' = expand x oo n') as E3.
    { clear - Hoff0. intros. apply expand_off. intros. apply Hoff0. lia. }
    assert (forall bs i, zlen bs <= osz -> write_bytes mf mo0 bs i = write_bytes mf oo bs i) as E5.
    { clear - Hoff0. intros bs i Hb. eapply write_bytes_off; [reflexivity|]. intros. apply Hoff0. pose proof (zlen_nonneg bs). lia. }
    clear Hoff Hoff0 Fo Fo0 Fk Fk0.
    destruct (match k with OpCall => negb (v =? 0) && static msg | _ => false end) eqn:Hst0.
    { apply wp_ret. fail_stateq. }
    unfold with_gas at 1. cbn [f_pc f_gas f_stack f_mem f_active f_ret f_refund f_world].
    change (to_address a) with (addr_of a).
    destruct (account_cost_sim S msg rev code targets cache (addr_of a) pc (g - fee) l mf act rt rf w) as (ac & w1 & Eac & Hac & Hwp).
    rewrite Eac. apply wp_bind. apply Hwp. clear Hwp. apply wp_bind, wp_get_w. cbn [m_w f_world].
    assert ((match k with OpCallCode => 0 | _ => if negb (v =? 0) && negb (h_account_exists HH w1 (addr_of a)) then 25000 else 0 end) =
      (if match k with OpCall => negb (v =? 0) && negb (h_account_exists HH w1 (addr_of a)) | _ => false end then 25000 else 0)) as ->.
    { destruct k; try reflexivity; rewrite (Ev eq_refl); reflexivity. }
    set (nc := if match k with OpCall => negb (v =? 0) && negb (h_account_exists HH w1 (addr_of a)) | _ => false end then 25000 else 0).
    assert (0 <= nc <= 25000) as Hnc by (unfold nc; clear; destruct (match k with OpCall => _ | _ => _ end); lia).
    set (vc := if negb (v =? 0) then 9000 else 0). assert (vc = if negb (v =? 0) then 9000 else 0) as Evc by reflexivity.
    assert (0 <= vc <= 9000) as Hvc by (unfold vc; destruct (negb (v =? 0)); lia).
    assert (nc = if match k with OpCall => negb (v =? 0) && negb (h_account_exists HH w1 (addr_of a)) | _ => false end then 25000 else 0) as Enc by reflexivity.
    clearbody nc vc.
    apply wp_spend; [lia|lia|unpow; lia|unfold kMaxGas; unpow; lia|unpow; lia| |].
    { intros Hlt. unfold q_charge. cbn [f_gas]. destruct (Z.ltb_spec (g - fee) (ac + vc + nc)); [|lia]. fail_dynq. }
    intros Hge2. unfold q_charge. cbn [f_gas]. destruct (Z.ltb_spec (g - fee) (ac + vc + nc)); [lia|]. fld.
    set (g2 := g - fee - (ac + vc + nc)). assert (g2 = g - fee - (ac + vc + nc)) as Eg2 by reflexivity. clearbody g2.
    unfold call_tail. cbv zeta.
    apply wp_bind, wp_put_ret. fld.
    apply wp_bind. eapply wp_grow; [fld; eassumption|lia|apply Po0; lia|]. intros m1 Rm1. fld.
    apply wp_bind. eapply wp_get_span; [eassumption|fld; eassumption|lia|apply Po; lia|]. intros m2 Rm2. fld.
    rewrite E1. rewrite E2, E3 in Rm2 by lia.
    rewrite expand_comm in Rm2. fold act' in Rm2.
    assert ((if greq <? kMaxGas then s64 greq else kMaxGas) = Z.min greq kMaxGas) as ->.
    { unfold is_word in Hgr. destruct (Z.ltb_spec greq kMaxGas); unfold kMaxGas in *; [|lia].
      rewrite s64_small by (unpow; lia). lia. }
    rewrite quot64 by lia. pose proof (all_but_range g2 ltac:(lia)) as Hab. unfold all_but_64th.
    replace (Z.min (Z.min greq kMaxGas) (g2 - g2 / 64)) with (Z.min greq (g2 - g2 / 64)) by (unfold kMaxGas; unpow; lia).
    set (fwd := Z.min greq (g2 - g2 / 64)). assert (0 <= fwd <= g2) as Hfwd by (unfold fwd, is_word in *; lia).
    assert (fwd = Z.min greq (all_but_64th g2)) as Efwd by reflexivity. clearbody fwd.
    set (st := if negb (v =? 0) then 2300 else 0).
    assert (0 <= st <= 2300 /\ st <= vc) as Hst by (unfold st; destruct (negb (v =? 0)); lia).
    apply wp_bind. eapply wp_mono with (Q := fun a s => a = fwd + st /\ s = mkMst buf m2 [] rf w1 sh).
    { unfold st. destruct (negb (v =? 0)); [apply wp_i64; [unpow; lia|auto]|apply wp_ret; split; [lia|reflexivity]]. }
    intros ? ? [-> ->].
    apply wp_bind. eapply wp_mono with (Q := fun a s => a = g2 + st /\ s = mkMst buf m2 [] rf w1 sh).
    { unfold st. destruct (negb (v =? 0)); [apply wp_i64; [unpow; lia|auto]|apply wp_ret; split; [lia|reflexivity]]. }
    intros ? ? [-> ->].
    apply wp_bind, wp_get_w. fld. fold (self msg).
    assert (exists x, rep buf (top + kk) (x :: s0)) as [x Rk].
    { exists osz. eapply rep_conv with (k := kk); [exact Rs|reflexivity| |]; subst l kk; destruct (has_v k); zl; try reflexivity; lia. }
    assert (is_word 0) as H0w by (unfold is_word; unpow; lia).
    assert (is_word 1) as H1w by (unfold is_word; unpow; lia).
    destruct (negb (v =? 0) && (h_get_balance HH w1 (self msg) <? v)) eqn:Hbal.
    { apply wp_bind. eapply wp_wr; [fld; exact Rk|zl; lia|]. intros b' Rb. tonat Rb. fld.
      apply wp_bind. apply wp_i64; [unpow; lia|]. apply wp_ret.
      unfold op_postq, op_post; cbn [asked answer]; fld; split; [reflexivity|]; split; [lia|]; split; [lia|]; split; [lia|]; split; fld; try assumption; try reflexivity.
      + replace (top - - kk) with (top + kk) by lia. assumption.
      + constructor; assumption.
      + constructor. }
    apply wp_bind. apply wp_host_call.
    - assumption.
    - apply Hask.
      erewrite call_asks with (f2 := mkFrame pc (g - fee) l mf act rt rf w1) (c := ac) (greq := greq) (a := a) (v := v) (ioff := io) (isz := isz) (ooff := oo) (osz := osz) (s := s0);
      cbn [f_stack f_active f_gas f_world f_mem with_gas]; try assumption.
      + rewrite <- Enc, <- Evc, <- Eg2, <- Efwd. reflexivity.
      + fold act'. rewrite <- Efee. assumption.
      + fold act'. rewrite <- Efee. exact Eac.
      + rewrite <- Enc, <- Evc. lia.
    - pose proof (mok_flags _ Hmsg). pose proof (mok_recipient _ Hmsg). pose proof (mok_sender _ Hmsg). pose proof (mok_value _ Hmsg).
      assert (is_addr (addr_of a)) by (unfold is_addr, addr_of; apply Z.mod_pos_bound; unpow; lia).
      constructor; unfold call_message; cbn [msg_flags msg_depth msg_gas msg_recipient msg_sender msg_input msg_value]; try (unpow; lia).
      + destruct k; try assumption; unfold EVMC_STATIC; lia.
      + destruct k; assumption.
      + destruct k; assumption.
      + eapply mem_rel_read_byte; [exact Rm|unfold is_word in Hio; lia].
      + rewrite read_bytes_zlen by lia. unpow; lia.
      + destruct k; assumption.
    - cbn [msg_gas call_message]. lia.
    - reflexivity.
    - intros r w' sh' Ecall Hcall Hsh'. unfold op_postq. cbn [asked answer f_world]. rewrite Ecall. destruct Hcall as [Kg Kr Ko Kl Ka]. cbn [msg_gas call_message] in Kg, Kr.
      apply wp_bind, wp_put_ret. fld.
      pose proof (zlen_nonneg (cr_output r)) as Hol.
      assert (forall m3, mem_rel m3 (write_bytes mf oo (firstn (Z.to_nat (Z.min osz (zlen (cr_output r)))) (cr_output r))) act' ->
       wp (bind (lift (i64 (fwd + st - cr_gas_left r))) (fun used =>
      spend g (g2 + st) used (fun gas =>
      bind (add_ref (cr_gas_refund r)) (fun _ =>
      bind (wr (top + kk) 0 (b2w (status_eqb (cr_status r) EVMC_SUCCESS))) (fun _ =>
      bind (lift (i64 (g - gas))) (fun d => dyn d))))))
       (mkMst buf m3 (cr_output r) rf w' sh')
       (op_post after 1 (- kk) top (mkFrame pc g l mf act rt rf w) (mkMst buf m rt rf w sh)
         (Next (mkFrame (pc + 1) (g2 - fwd + cr_gas_left r) (bool_word (status_eqb (cr_status r) EVMC_SUCCESS) :: s0)
             (write_bytes mf oo (firstn (Z.to_nat (Z.min osz (zlen (cr_output r)))) (cr_output r))) act' (cr_output r)
             (rf + cr_gas_refund r) w')))) as Htail.
      { intros m3 Rm3. apply wp_bind. apply wp_i64; [unpow; lia|].
        apply wp_spend; [lia|lia|unpow; lia|unfold kMaxGas; unpow; lia|unpow; lia|lia|]. intros _.
        apply wp_bind. apply wp_add_ref; [fld; unpow; lia|]. fld.
        apply wp_bind. eapply wp_wr; [fld; exact Rk|zl; lia|]. intros b' Rb. tonat Rb. fld.
        apply wp_bind. apply wp_i64; [unpow; lia|]. apply wp_ret.
        unfold op_postq, op_post; cbn [asked answer]; fld; split; [reflexivity|]; split; [lia|]; split; [lia|]; split; [lia|]; split; fld; try assumption; try reflexivity.
        + replace (top - - kk) with (top + kk) by lia. assumption.
        + constructor; [|assumption]. unfold bool_word. destruct (status_eqb _ _); assumption. }
      fld. destruct (Z.ltb_spec 0 (zlen (cr_output r))) as [Hpos|Hzero].
      + assert (0 <= Z.min osz (zlen (cr_output r)) <= osz) as Hmin by (clear - Hon Hol; lia).
        assert (0 <= Z.min osz (zlen (cr_output r)) <= zlen (cr_output r)) as Hmin' by (clear - Hon Hol; lia).
        apply wp_bind. eapply wp_read_from_ws; [eassumption|fld; eassumption|assumption|apply Hmin|apply Po0; exact Hmin|].
        intros m3 Rm3. fld. apply Htail.
        rewrite data_bytes_firstn in Rm3 by exact Hmin'.
        rewrite E3 in Rm3 by exact Hmin.
        rewrite (expand_in act oo osz) in Rm3; [|exact Hmin|unfold act'; rewrite expand_comm; apply expand_ge].
        eapply mem_rel_ext; [exact Rm3|]. intros. apply E5. clear - Hmin. unfold zlen. rewrite firstn_length. lia.
      + apply wp_bind, wp_ret. apply Htail. assert (zlen (cr_output r) = 0) as -> by lia.
        rewrite Z.min_r by lia. cbn [Z.to_nat firstn]. eapply mem_rel_ext; [exact Rm2|]. intros. rewrite write_bytes_nil. reflexivity. }
  intros top f s R I Hargs Hroom Hpc Hpc2 Hask.
  destruct f as [pc g stk mf act rt rf w], s as [buf m rt' rf' w' sh].
  destruct R as [Rs Rw Rm Rr Rrb Rrl Rf Rwd Rsh].
  cbn [f_pc f_gas f_stack f_mem f_active f_ret f_refund f_world m_buf m_mem m_ret m_ref m_w m_sh] in *; subst rt' rf' w'.
  match goal with |- wp ?x ?s _ => change (wp x s (op_postq 1 (if has_v k then -6 else -5) top (mkFrame pc g stk mf act rt rf w) (mkMst buf m rt rf w sh) (q_call HH msg rev k (mkFrame pc g stk mf act rt rf w)))) end.
  destruct (has_v k) eqn:Ek.
  - destruct stk as [|x1 [|x2 [|x3 [|x4 [|x5 [|x6 [|x7 stk]]]]]]]; try (exfalso; zl; lia).
    replace (q_call HH msg rev k (mkFrame pc g (x1 :: x2 :: x3 :: x4 :: x5 :: x6 :: x7 :: stk) mf act rt rf w))
      with (call_rq k (mkFrame pc g (x1 :: x2 :: x3 :: x4 :: x5 :: x6 :: x7 :: stk) mf act rt rf w) x1 x2 x3 x4 x5 x6 x7 stk)
      by (rewrite q_call_eq; destruct k; try discriminate; reflexivity).
    apply (Hcore x1 x2 x3 x4 x5 x6 x7 stk) with (kk := 6); auto; discriminate.
  - destruct stk as [|x1 [|x2 [|x4 [|x5 [|x6 [|x7 stk]]]]]]; try (exfalso; zl; lia).
    replace (q_call HH msg rev k (mkFrame pc g (x1 :: x2 :: x4 :: x5 :: x6 :: x7 :: stk) mf act rt rf w))
      with (call_rq k (mkFrame pc g (x1 :: x2 :: x4 :: x5 :: x6 :: x7 :: stk) mf act rt rf w) x1 x2 0 x4 x5 x6 x7 stk)
      by (rewrite q_call_eq; destruct k; try discriminate; reflexivity).
    apply (Hcore x1 x2 0 x4 x5 x6 x7 stk) with (kk := 5); auto; discriminate.
Qed.
End SimCall.
