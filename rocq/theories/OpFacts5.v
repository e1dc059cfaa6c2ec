(** EXTCODECOPY, CREATE, CREATE2 and the call instructions, as observed through StepN. *)
From Verif Require Import Base Host SpecEvm SpecCall SpecVm MemFacts JumpFacts ArithFacts SpecFacts Vm VmFacts SpecStep StepFacts Client ClientFacts
  SpecOps SpecHost OpFacts OpFacts2 OpFacts3 OpFacts4.
From Coq Require Import Lia ZArith List Bool.
Import ListNotations.

Lemma nth_firstn_lt {A} (d : A) n : forall i l, (i < n)%nat -> nth i (firstn n l) d = nth i l d.
Proof. induction n as [|n IH]; intros i l Hi; [lia|]. destruct l as [|x l], i as [|i]; try reflexivity. cbn [firstn nth]. apply IH. lia. Qed.
Lemma nth_skipn_add {A} (d : A) n : forall i l, nth i (skipn n l) d = nth (n + i) l d.
Proof. induction n as [|n IH]; intros i l; [reflexivity|]. destruct l as [|x l]; [destruct i; reflexivity|]. cbn [skipn Nat.add nth]. apply IH. Qed.

Section Ops.
Context {W : Type}.
Variable g : setting W.
Hypothesis Hg : setting_ok g.
Notation hst := (g_host g).
Notation keccak := (g_keccak g).
Notation sexec := (SpecEvm.exec hst (nested g) keccak).

Lemma top_words v code m si op rest ins : at_op g v code m si op -> si_stack si = rest ++ rev ins -> Forall is_word ins.
Proof.
  intros A Hs. pose proof (sk_words _ _ _ (at_args _ _ _ _ _ _ A)) as F. rewrite Hs in F. apply Forall_app in F. destruct F as [_ F].
  apply Forall_rev in F. rewrite rev_involutive in F. exact F.
Qed.
Lemma keep_mem code (f' : frame W) mem : still_ok code f' -> (forall i, 0 <= i -> f_mem f' i = data_at mem i) ->
  overwritten mem (read_bytes (f_mem f') 0 (f_active f')) (f_active f') 0 0 (fun _ => 0).
Proof.
  intros S Hm. apply (show_mem code f' mem 0 0 (fun _ => 0) S). intros i Hi. rewrite Hm by exact Hi.
  destruct (Z.leb_spec 0 i), (Z.ltb_spec i (0 + 0)); try lia; reflexivity.
Qed.

(** EXTCODECOPY from an account whose code is [C] *)
Theorem op_extcodecopy v w rv code m si rest n coff moff a c w1 C : at_op g v code m si 0x3C -> si_stack si = rest ++ [n; coff; moff; a] ->
  let addr := a mod 2 ^ 160 in
  account_access hst rv w addr = (c, w1) ->
  zlen C < 2 ^ 64 -> (forall off n, 0 <= off -> 0 < n -> h_copy_code hst w1 addr off n = firstn (Z.to_nat n) (skipn (Z.to_nat off) C)) ->
  let grow := growth_cost (si_mem si) moff n in
  let cost := grow + 3 * words n + c in
  (cost <= msg_gas m -> exists mem',
     steps_to g v w rv code m si (running rv (si_pc si + 1) (msg_gas m - cost) (si_refunds si) rest mem' (si_ret si)) w1 /\
     overwritten (si_mem si) mem' (grown (si_mem si) moff n) moff n (fun i => data_at C (coff + i))) /\
  (grow <= msg_gas m < cost -> fails_with g v w rv code m si EVMC_OUT_OF_GAS w1) /\
  (msg_gas m < grow -> out_of_gas g v w rv code m si).
Proof.
  intros A Hs addr Hac HC Hcopy grow cost.
  pose proof (top_words v code m si 0x3C rest [a; moff; coff; n] A Hs) as Hw.
  assert (0 <= n /\ 0 <= coff) as [Hn Hco].
  { inversion Hw as [|? ? ? Hw2]; subst. inversion Hw2 as [|? ? ? Hw3]; subst. inversion Hw3 as [|? ? F3 Hw4]; subst. inversion Hw4 as [|? ? F4 _]; subst. unfold is_word in *. lia. }
  pose proof (zlen_nonneg rest). pose proof (sk_height _ _ _ (at_args _ _ _ _ _ _ A)) as Hh.
  assert (Hz : zlen (si_stack si) = zlen rest + 4) by (rewrite Hs, zlen_app; reflexivity).
  pose proof (account_access_pos g _ _ _ _ _ Hac) as Hc. pose proof (words_nonneg n Hn) as Hwn.
  set (i := mkInstr 4 0 0 Istanbul false). set (f0 := with_gas (msg_gas m - in_fee i) (frame_in m w si)).
  assert (Hgrow : 0 <= grow) by apply growth_nonneg.
  set (k2 := fun f3 : frame W => let src := if (coff <? 2 ^ 64) && (0 <? n) then h_copy_code hst (f_world f3) addr coff n else [] in
    yield (rev rest) (with_mem (write_bytes (f_mem f3) moff (data_bytes src 0 n)) (touch moff n f3))).
  set (k1 := fun f1 : frame W => let '(c, f2) := account_cost hst rv f1 addr in charge (3 * words n + c) f2 k2).
  assert (He : let f := f0 in sexec m rv code (is_dest code) 0x3C f = charge grow f k1).
  { cbv zeta. unfold f0. cbn [SpecEvm.exec]. unfold i_extcodecopy. stk. rewrite Hs, rev_app_distr. cbn [rev app].
    unfold grow. rewrite <- (fee_eq m w si (msg_gas m - in_fee i)). reflexivity. }
  destruct (charged g Hg v w rv code m si 0x3C i grow k1 A eq_refl (istanbul rv) eq_refl ltac:(cbn [i in_args]; lia) ltac:(cbn [i in_args in_results]; lia) Hgrow He) as [Y X].
  cbn [i in_fee] in X, Y. rewrite Z.add_0_l in X, Y.
  assert (Hk1 : grow <= msg_gas m -> sexec m rv code (is_dest code) 0x3C f0 = charge (3 * words n + c) (with_world w1 (with_gas (msg_gas m - grow) (frame_in m w si))) k2).
  { intros Hf. destruct (X Hf) as [_ X2]. unfold f0. cbn [i in_fee]. rewrite X2. unfold k1.
    rewrite (account_cost_is g rv (with_gas (msg_gas m - grow) (frame_in m w si)) addr c w1 Hac). reflexivity. }
  split; [|split; [|exact Y]].
  - intros Hf. specialize (Hk1 ltac:(unfold cost in Hf; lia)). unfold charge in Hk1. cbn [with_world with_gas f_gas] in Hk1.
    destruct (Z.ltb_spec (msg_gas m - grow) (3 * words n + c)); [unfold cost in Hf; lia|].
    destruct (next_result g Hg v w rv code m si 0x3C i _ A eq_refl (istanbul rv) eq_refl ltac:(cbn [i in_args]; lia) ltac:(cbn [i in_args in_results]; lia)
      ltac:(cbn [i in_fee]; unfold cost in Hf; lia) Hk1) as [R S].
    flds. rewrite rev_involutive in R. replace (msg_gas m - grow - (3 * words n + c)) with (msg_gas m - cost) in R by (unfold cost; lia).
    eexists. split; [exact R|]. refine (show_mem code _ (si_mem si) moff n (fun i => data_at C (coff + i)) S _). intros j Hj. flds.
    rewrite write_eq, data_bytes_zlen. rewrite Z.max_r by lia. destruct (Z.leb_spec moff j), (Z.ltb_spec j (moff + n)); cbn [andb]; try reflexivity.
    rewrite data_bytes_read, read_bytes_at by lia. rewrite Z.add_0_l.
    destruct (Z.ltb_spec 0 n); [|lia]. rewrite andb_true_r. destruct (Z.ltb_spec coff (2 ^ 64)) as [Hlt|Hge'].
    + rewrite Hcopy by lia. set (t := j - moff). assert (Ht : 0 <= t < n) by (unfold t; lia).
      destruct (Z.lt_ge_cases (coff + t) (zlen C)) as [Hin|Hout].
      * rewrite !data_at_in; [|lia|].
        2:{ unfold zlen in *. rewrite firstn_length, skipn_length. lia. }
        rewrite nth_firstn_lt by lia. rewrite nth_skipn_add. f_equal. lia.
      * rewrite !data_at_out; [reflexivity|lia|]. unfold zlen in *. rewrite firstn_length, skipn_length. lia.
    + rewrite !data_at_out; [reflexivity|lia|rewrite zlen_nil; lia].
  - intros [Hp Hlt]. specialize (Hk1 Hp). unfold charge in Hk1. cbn [with_world with_gas f_gas] in Hk1.
    destruct (Z.ltb_spec (msg_gas m - grow) (3 * words n + c)); [|unfold cost in Hlt; lia].
    destruct (fail_result g Hg v w rv code m si 0x3C i _ _ A eq_refl (istanbul rv) eq_refl ltac:(cbn [i in_args]; lia) ltac:(cbn [i in_args in_results]; lia)
      ltac:(cbn [i in_fee]; lia) Hk1) as (so & R1 & R2). exists so. split; [exact R1|exact R2].
Qed.

(** CREATE and CREATE2 *)
Theorem op_create v w rv code m si (two : bool) rest (salt n off value : Z) :
  at_op g v code m si (if two then 0xF5 else 0xF0) -> static m = false ->
  si_stack si = rest ++ (if two then [salt; n; off; value] else [n; off; value]) -> (two = false -> salt = 0) ->
  let grow := growth_cost (si_mem si) off n in
  let cost := 32000 + grow + (if rev_ge rv Shanghai then 2 * words n else 0) + (if two then 6 * words n else 0) in
  let avail := msg_gas m - cost in
  let fwd := avail - avail / 64 in
  let m' := creation_message m two fwd (data_bytes (si_mem si) off n) value salt in
  (msg_gas m < 32000 + grow -> out_of_gas g v w rv code m si) /\
  (32000 + grow <= msg_gas m -> rev_ge rv Shanghai = true -> 49152 < n -> fails_with g v w rv code m si EVMC_FAILURE w) /\
  (rev_ge rv Shanghai = false \/ n <= 49152 ->
     (msg_gas m < cost -> out_of_gas g v w rv code m si) /\
     (cost <= msg_gas m -> h_get_balance hst w (msg_recipient m) < value -> exists mem',
        steps_to g v w rv code m si (running rv (si_pc si + 1) avail (si_refunds si) (rest ++ [0]) mem' []) w /\
        overwritten (si_mem si) mem' (grown (si_mem si) off n) 0 0 (fun _ => 0)) /\
     (cost <= msg_gas m -> value <= h_get_balance hst w (msg_recipient m) -> forall r w', nested g w m' = (r, w') -> exists mem',
        steps_to g v w rv code m si (running rv (si_pc si + 1) (avail - fwd + cr_gas_left r) (si_refunds si + cr_gas_refund r)
          (rest ++ [if status_eqb (cr_status r) EVMC_SUCCESS then cr_create_address r else 0]) mem'
          (if status_eqb (cr_status r) EVMC_REVERT then cr_output r else [])) w' /\
        overwritten (si_mem si) mem' (grown (si_mem si) off n) 0 0 (fun _ => 0))).
Proof.
  intros A Hst Hs Hsalt grow cost avail fwd m'.
  assert (Hs' : si_stack si = rest ++ rev (if two then [value; off; n; salt] else [value; off; n])) by (rewrite Hs; destruct two; reflexivity).
  pose proof (top_words v code m si _ rest _ A Hs') as Hw.
  assert (Hn : 0 <= n).
  { destruct two; inversion Hw as [|? ? ? Hw2]; subst; inversion Hw2 as [|? ? ? Hw3]; subst; inversion Hw3 as [|? ? F3 Hw4]; subst; unfold is_word in *; lia. }
  pose proof (zlen_nonneg rest). pose proof (sk_height _ _ _ (at_args _ _ _ _ _ _ A)) as Hh.
  pose proof (words_nonneg n Hn) as Hwn. assert (Hgrow : 0 <= grow) by apply growth_nonneg.
  set (i := mkInstr (if two then 4 else 3) 1 32000 Istanbul true).
  assert (Hi : instruction (if two then 0xF5 else 0xF0) = Some i) by (destruct two; reflexivity).
  assert (Hz : zlen (si_stack si) = zlen rest + in_args i) by (rewrite Hs', zlen_app, zlen_rev; destruct two; reflexivity).
  assert (Hargs : 3 <= in_args i) by (unfold i; destruct two; cbn [in_args]; lia). assert (Hres : in_results i = 1) by reflexivity. assert (Hfee : in_fee i = 32000) by reflexivity.
  assert (Hst' : in_stateful i && static m = false) by exact Hst.
  set (f0 := with_gas (msg_gas m - in_fee i) (frame_in m w si)).
  assert (He0 : sexec m rv code (is_dest code) (if two then 0xF5 else 0xF0) f0 = create_go hst (nested g) m rv two f0 value off n salt (rev rest)).
  { transitivity (i_create hst (nested g) m rv two f0); [destruct two; reflexivity|]. rewrite i_create_eq. unfold f0. stk. rewrite Hs', rev_app_distr, rev_involutive.
    destruct two; cbn [app]; [reflexivity|]. rewrite (Hsalt eq_refl). reflexivity. }
  assert (Hdep : (1024 <? msg_depth m) = false) by (apply Z.ltb_ge; pose proof (eok_depth _ _ _ (at_exec _ _ _ _ _ _ A)); lia).
  unfold create_go in He0. rewrite Hdep in He0.
  replace (mem_fee f0 off n) with grow in He0 by (symmetry; apply fee_eq).
  match type of He0 with _ = charge grow f0 ?kk => set (k1 := kk) in He0 end.
  destruct (charged g Hg v w rv code m si _ i grow k1 A Hi (istanbul rv) Hst' ltac:(lia) ltac:(lia) Hgrow He0) as [Y X].
  rewrite Hfee in X, Y. split; [exact Y|].
  assert (Hk1 : 32000 + grow <= msg_gas m -> sexec m rv code (is_dest code) (if two then 0xF5 else 0xF0) f0 = k1 (with_gas (msg_gas m - (32000 + grow)) (frame_in m w si))).
  { intros Hf. destruct (X Hf) as [_ X2]. exact X2. }
  split.
  - intros Hf Hsh Hbig. specialize (Hk1 Hf). unfold k1 in Hk1. rewrite Hsh in Hk1. replace (49152 <? n) with true in Hk1 by (symmetry; apply Z.ltb_lt; lia). cbn [andb] in Hk1.
    destruct (fail_result g Hg v w rv code m si _ i _ _ A Hi (istanbul rv) Hst' ltac:(lia) ltac:(lia) ltac:(lia) Hk1) as (so & R1 & R2). exists so. split; [exact R1|exact R2].
  - intros Hsz. assert (Hnb : rev_ge rv Shanghai && (49152 <? n) = false).
    { destruct Hsz as [->|Hle]; [reflexivity|]. apply andb_false_intro2. apply Z.ltb_ge. lia. }
    set (c2 := (if rev_ge rv Shanghai then 2 * words n else 0) + (if two then 6 * words n else 0)).
    assert (Hc2 : 0 <= c2) by (unfold c2; destruct (rev_ge rv Shanghai), two; lia).
    assert (Hcost : cost = 32000 + grow + c2) by (unfold cost, c2; lia).
    match eval cbv delta [k1] in k1 with (fun f1 => if _ then _ else charge _ f1 ?kk) => set (k2 := kk) in k1 end.
    assert (Hk2 : cost <= msg_gas m -> sexec m rv code (is_dest code) (if two then 0xF5 else 0xF0) f0 = k2 (with_gas avail (frame_in m w si))).
    { intros Hf. rewrite Hk1 by lia. unfold k1. rewrite Hnb. fold c2. unfold charge. cbn [with_gas f_gas].
      destruct (Z.ltb_spec (msg_gas m - (32000 + grow)) c2); [lia|]. f_equal. unfold with_gas. cbn [frame_in f_pc f_gas f_stack f_mem f_active f_ret f_refund f_world].
      f_equal. unfold avail. lia. }
    pose proof (fun f' => next_result g Hg v w rv code m si _ i f' A Hi (istanbul rv) Hst' ltac:(lia) ltac:(lia)) as N. rewrite Hfee in N.
    split; [|split].
    + intros Hlt. destruct (Z.lt_ge_cases (msg_gas m) (32000 + grow)) as [Hl|Hl]; [apply Y; exact Hl|]. specialize (Hk1 Hl). unfold k1 in Hk1. rewrite Hnb in Hk1. fold c2 in Hk1.
      unfold charge in Hk1. cbn [with_gas f_gas] in Hk1. destruct (Z.ltb_spec (msg_gas m - (32000 + grow)) c2); [|lia].
      destruct (fail_result g Hg v w rv code m si _ i _ _ A Hi (istanbul rv) Hst' ltac:(lia) ltac:(lia) ltac:(lia) Hk1) as (so & R1 & R2). exists so. split; [exact R1|exact R2].
    + intros Hf Hb. specialize (Hk2 Hf). unfold k2 in Hk2. cbv zeta in Hk2.
      change (f_world (touch off n (with_ret [] (with_gas avail (frame_in m w si))))) with w in Hk2. change (self m) with (msg_recipient m) in Hk2.
      destruct (Z.ltb_spec (h_get_balance hst w (msg_recipient m)) value); [|lia].
      destruct (N _ ltac:(lia) Hk2) as [R S]. flds. rewrite rev_involutive in R. eexists. split; [exact R|]. apply (keep_mem code _ (si_mem si) S). intros j _. reflexivity.
    + intros Hf Hb r w' Hn'. specialize (Hk2 Hf). unfold k2 in Hk2. cbv zeta in Hk2.
      change (f_world (touch off n (with_ret [] (with_gas avail (frame_in m w si))))) with w in Hk2. change (self m) with (msg_recipient m) in Hk2.
      change (f_gas (touch off n (with_ret [] (with_gas avail (frame_in m w si))))) with avail in Hk2.
      change (f_mem (touch off n (with_ret [] (with_gas avail (frame_in m w si))))) with (data_at (si_mem si)) in Hk2.
      destruct (Z.ltb_spec (h_get_balance hst w (msg_recipient m)) value); [lia|].
      match type of Hk2 with context [nested g w ?mm] => replace mm with m' in Hk2 by (unfold m', creation_message, fwd; rewrite data_bytes_read; reflexivity) end.
      rewrite Hn' in Hk2. change (all_but_64th avail) with fwd in Hk2.
      destruct (cr_status r) eqn:Est; destruct (N _ ltac:(lia) Hk2) as [R S]; flds; rewrite rev_involutive in R; eexists; (split; [exact R|]); apply (keep_mem code _ (si_mem si) S); intros j _; reflexivity.
Qed.
End Ops.
