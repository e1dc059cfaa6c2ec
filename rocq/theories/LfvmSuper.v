(** The super instructions of the Go interpreter do what the instructions they stand for do, one after the other. *)
From Verif Require Sim.
From Verif Require Import Base Host Uint256 SpecEvm SpecCall SpecVm ArithFacts MemFacts JumpFacts SpecFacts FrameFacts StepFacts VmFacts GoAdapter LfvmCode Lfvm LfvmSim LfvmOps LfvmConv LfvmExec LfvmStep.
From Coq Require Import Lia ZArith List Bool.
Import ListNotations.
Open Scope Z_scope.

(** ** Sequences of plain stack instructions *)
Definition simple (b : Z) : bool := existsb (Z.eqb b) [0x01; 0x03; 0x10; 0x15; 0x16; 0x1B; 0x50; 0x60; 0x61; 0x63; 0x80; 0x81; 0x82; 0x90; 0x91].
Definition top (s : list Z) (k : nat) : Z := nth k s 0.
Definition effect (code : list Z) (b i : Z) (s : list Z) : list Z :=
  match b with
  | 0x01 => to_word (top s 0 + top s 1) :: skipn 2 s
  | 0x03 => to_word (top s 0 - top s 1) :: skipn 2 s
  | 0x10 => bool_word (top s 0 <? top s 1) :: skipn 2 s
  | 0x15 => bool_word (top s 0 =? 0) :: skipn 1 s
  | 0x16 => Z.land (top s 0) (top s 1) :: skipn 2 s
  | 0x1B => w_shl (top s 0) (top s 1) :: skipn 2 s
  | 0x50 => skipn 1 s
  | 0x80 => top s 0 :: s
  | 0x81 => top s 1 :: s
  | 0x82 => top s 2 :: s
  | 0x90 => top s 1 :: top s 0 :: skipn 2 s
  | 0x91 => top s 2 :: top s 1 :: top s 0 :: skipn 3 s
  | _ => be (data_bytes code (i + 1) (push_len b)) :: s
  end.
Fixpoint effects (code : list Z) (ops : list Z) (i : Z) (s : list Z) : list Z :=
  match ops with [] => s | b :: ops => effects code ops (i + 1 + push_len b) (effect code b i s) end.
Definition args (b : Z) : Z := match instruction b with Some ins => in_args ins | None => 0 end.
Definition results (b : Z) : Z := match instruction b with Some ins => in_results ins | None => 0 end.
Definition fee (b : Z) : Z := match instruction b with Some ins => in_fee ins | None => 0 end.
Fixpoint fits (ops : list Z) (h : Z) : bool :=
  match ops with [] => true | b :: ops => (args b <=? h) && (h - args b + results b <=? 1024) && fits ops (h - args b + results b) end.
Fixpoint height (ops : list Z) (h : Z) : Z := match ops with [] => h | b :: ops => height ops (h - args b + results b) end.
Fixpoint fees (ops : list Z) : Z := match ops with [] => 0 | b :: ops => fee b + fees ops end.
Lemma fits_app a b h : fits (a ++ b) h = fits a h && fits b (height a h).
Proof. revert h. induction a as [|x a ih]; intros h; cbn [app fits height]; [reflexivity|]. rewrite ih. rewrite <- !andb_assoc. reflexivity. Qed.
Lemma fees_app a b : fees (a ++ b) = fees a + fees b.
Proof. induction a as [|x a ih]; cbn [app fees]; lia. Qed.
Lemma simple_cases (P : Z -> Prop) : Forall P [0x01; 0x03; 0x10; 0x15; 0x16; 0x1B; 0x50; 0x60; 0x61; 0x63; 0x80; 0x81; 0x82; 0x90; 0x91] -> forall b, simple b = true -> P b.
Proof.
  intros hf b h. unfold simple in h. apply existsb_exists in h. destruct h as (x & hin & e). apply Z.eqb_eq in e. subst x. rewrite Forall_forall in hf. auto.
Qed.
Ltac each := repeat (apply Forall_cons; [|]); [..|apply Forall_nil].

Section Super.
Context {W : Type}.
Variable rc : run_context W.
Variable tx : tx_context.
Variable Call : W -> go_kind -> call_params -> option call_result * W.
Variable keccak : list Z -> Z.
Variable p : parameters.
Variable super : bool.
Variable lc : lcode.
Variable rv : revision.
Hypothesis Hrev : toEvmcRevision (p_revision p) = Some rv.
Hypothesis Hcode : Forall is_byte (p_code p).
Hypothesis Hsize : zlen (p_code p) <= 65536.
Hypothesis Hloc : located super (p_code p) lc 0 0.

Notation H := (go_host rc tx).
Notation msg := (message_of p).
Notation code := (p_code p).
Notation frame := (frame W).
Notation ctx := (ctx W).
Notation oc := (oc W).
Notation exec := (SpecEvm.exec H (callF Call) keccak msg rv code (is_dest code)).
Notation step := (SpecEvm.step H (callF Call) keccak msg rv code (is_dest code)).
Notation run_for := (SpecEvm.run_for H (callF Call) keccak msg rv code (is_dest code)).
Notation execute_op := (execute_op rc tx Call keccak p lc).
Notation lstep := (lstep rc tx Call keccak p lc).
Notation loc := (located super code lc).
Notation at_pos := (at_pos p super lc).
Notation nextpos := (nextpos p super lc).
Notation walk := (walk code).

Lemma simple_exec b : simple b = true -> forall f : frame, args b <= zlen (f_stack f) ->
  exec b f = Next (with_pc (f_pc f + 1 + push_len b) (with_stack (effect code b (f_pc f) (f_stack f)) f)) /\ zlen (effect code b (f_pc f) (f_stack f)) = zlen (f_stack f) - args b + results b.
Proof.
  revert b. apply (simple_cases (fun b => forall f : frame, args b <= zlen (f_stack f) ->
    exec b f = Next (with_pc (f_pc f + 1 + push_len b) (with_stack (effect code b (f_pc f) (f_stack f)) f)) /\ zlen (effect code b (f_pc f) (f_stack f)) = zlen (f_stack f) - args b + results b)).
  each; intros [pc g stk mf act rt rf w]; cbn [f_stack]; intros ha;
    match type of ha with ?x <= _ => let v := eval vm_compute in x in change x with v in * end;
    match goal with |- context [results ?b] => let v := eval vm_compute in (results b) in change (results b) with v end;
    repeat match goal with h : Zpos ?n <= zlen ?l |- _ => is_var l; destruct l as [|?z l]; [change (zlen (@nil Z)) with 0 in h; exfalso; lia|]; rewrite zlen_cons in *;
      let m := eval compute in (Zpos n - 1) in
      lazymatch m with 0 => clear h | _ => match type of h with _ <= zlen ?l' + 1 => let h' := fresh "ha" in assert (h' : m <= zlen l') by lia; clear h end end end;
    (split; [match goal with |- context [push_len ?b] => let v := eval vm_compute in (push_len b) in change (push_len b) with v end; cbn [f_pc]; first [rewrite Z.add_0_r; reflexivity | reflexivity]|]);
    cbn [effect f_pc skipn top nth]; rewrite ?zlen_cons; lia.
Qed.
Lemma effect_word b : simple b = true -> forall i s, Forall is_word s -> args b <= zlen s -> Forall is_word (effect code b i s).
Proof.
  revert b. apply (simple_cases (fun b => forall i s, Forall is_word s -> args b <= zlen s -> Forall is_word (effect code b i s))).
  each; intros i stk hw ha;
    match type of ha with ?x <= _ => let v := eval vm_compute in x in change x with v in * end;
    repeat match goal with h : Zpos ?n <= zlen ?l |- _ => is_var l; destruct l as [|?z l]; [change (zlen (@nil Z)) with 0 in h; exfalso; lia|]; rewrite zlen_cons in *;
      let m := eval compute in (Zpos n - 1) in
      lazymatch m with 0 => clear h | _ => match type of h with _ <= zlen ?l' + 1 => let h' := fresh "ha" in assert (h' : m <= zlen l') by lia; clear h end end end;
    repeat match goal with h : Forall is_word (_ :: _) |- _ => let h1 := fresh "hw" in pose proof (Forall_inv h) as h1; apply Forall_inv_tail in h end;
    cbn [effect skipn top nth]; repeat (apply Forall_cons; [|]); try assumption;
    first [apply to_word_range | apply bool_word_range | apply land_word; assumption | apply Sim.w_shl_range
      | apply be_word; [apply data_bytes_byte; exact Hcode|rewrite data_bytes_zlen; vm_compute; discriminate] ].
Qed.

Lemma step_at (f : frame) b : code_at code (f_pc f) = b -> (exists ins, instruction b = Some ins /\ in_since ins = Istanbul /\ in_stateful ins = false) ->
  if (args b <=? zlen (f_stack f)) && (zlen (f_stack f) - args b + results b <=? 1024) then step f = charge (fee b) f (exec b) else exists e, step f = Fail e f.
Proof.
  intros hb (ins & ei & es & et). unfold SpecEvm.step. rewrite hb. unfold args, results, fee. rewrite ei, es, et.
  replace (rev_ge rv Istanbul) with true by (destruct rv; reflexivity). cbn [negb andb].
  destruct (Z.leb_spec (in_args ins) (zlen (f_stack f))), (Z.ltb_spec (zlen (f_stack f)) (in_args ins)); cbn [andb]; try lia; eauto.
  destruct (Z.leb_spec (zlen (f_stack f) - in_args ins + in_results ins) 1024), (Z.ltb_spec 1024 (zlen (f_stack f) - in_args ins + in_results ins)); cbn [andb]; try lia; eauto.
Qed.
Lemma simple_instr b : simple b = true -> exists ins, instruction b = Some ins /\ in_since ins = Istanbul /\ in_stateful ins = false.
Proof.
  revert b. apply (simple_cases (fun b => exists ins, instruction b = Some ins /\ in_since ins = Istanbul /\ in_stateful ins = false)).
  each; eexists; (split; [reflexivity|]); split; reflexivity.
Qed.
Lemma simple_fee b : simple b = true -> 0 <= fee b.
Proof. revert b. apply (simple_cases (fun b => 0 <= fee b)). each; vm_compute; discriminate. Qed.
Lemma simple_fees ops : forallb simple ops = true -> 0 <= fees ops.
Proof. induction ops as [|b ops ih]; cbn [forallb fees]; intros h; [lia|]. apply andb_prop in h. destruct h as [h1 h2]. pose proof (simple_fee b h1). specialize (ih h2). lia. Qed.

Lemma simple_run ops : forall (f : frame) j, forallb simple ops = true -> walk (f_pc f) ops j -> 0 <= f_gas f ->
  if fits ops (zlen (f_stack f)) && (fees ops <=? f_gas f)
  then run_for (length ops) f = Next (with_pc j (with_gas (f_gas f - fees ops) (with_stack (effects code ops (f_pc f) (f_stack f)) f)))
  else exists e f', run_for (length ops) f = Fail e f'.
Proof.
  induction ops as [|b ops ih]; intros f j hs hw hg.
  - inversion hw; subst. cbn [fits fees andb length SpecEvm.run_for effects]. destruct (Z.leb_spec 0 (f_gas f)); [|lia]. rewrite Z.sub_0_r. destruct f; reflexivity.
  - cbn [forallb] in hs. apply andb_prop in hs. destruct hs as [hb hs]. inversion hw as [|? ? ? ? h1 h2 h3 h4]; subst. cbn [fits fees length SpecEvm.run_for effects].
    set (b := code_at code (f_pc f)) in *. pose proof (step_at f b eq_refl (simple_instr b hb)) as X. pose proof (simple_fee b hb) as hf. pose proof (simple_fees ops hs) as hfs.
    destruct (Z.leb_spec (args b) (zlen (f_stack f))) as [ha|ha]; cbn [andb] in X |- *; [|destruct X as [e ->]; eauto].
    destruct (Z.leb_spec (zlen (f_stack f) - args b + results b) 1024) as [hr|hr]; cbn [andb] in X |- *; [|destruct X as [e ->]; eauto].
    rewrite X. unfold charge. destruct (Z.ltb_spec (f_gas f) (fee b)) as [hlt|hlt].
    + replace (fee b + fees ops <=? f_gas f) with false by (symmetry; apply Z.leb_gt; lia). rewrite andb_false_r. eauto.
    + pose proof (simple_exec b hb (with_gas (f_gas f - fee b) f) ha) as [e1 e2]. cbn [f_pc f_stack with_gas] in e1, e2. rewrite e1.
      pose proof (ih (with_pc (f_pc f + 1 + push_len b) (with_stack (effect code b (f_pc f) (f_stack f)) (with_gas (f_gas f - fee b) f))) j hs h4 ltac:(cbn; lia)) as Y.
      cbn [f_pc f_stack f_gas with_pc with_stack with_gas] in Y. rewrite e2 in Y.
      replace (fees ops <=? f_gas f - fee b) with (fee b + fees ops <=? f_gas f) in Y by (destruct (Z.leb_spec (fee b + fees ops) (f_gas f)), (Z.leb_spec (fees ops) (f_gas f - fee b)); lia).
      destruct (fits ops _ && _); [|exact Y]. rewrite Y. f_equal. destruct f as [xpc xg xs xm xa xr xf xw]. unfold with_pc, with_gas, with_stack. cbn [f_pc f_gas f_stack f_mem f_active f_ret f_refund f_world] in *. f_equal. lia.
Qed.
Lemma effect_len b i s : simple b = true -> args b <= zlen s -> zlen (effect code b i s) = zlen s - args b + results b.
Proof.
  intros hb. revert i s. revert b hb. apply (simple_cases (fun b => forall i s, args b <= zlen s -> zlen (effect code b i s) = zlen s - args b + results b)).
  each; intros i stk ha;
    match type of ha with ?x <= _ => let v := eval vm_compute in x in change x with v in * end;
    match goal with |- context [results ?b] => let v := eval vm_compute in (results b) in change (results b) with v end;
    repeat match goal with h : Zpos ?n <= zlen ?l |- _ => is_var l; destruct l as [|?z l]; [change (zlen (@nil Z)) with 0 in h; exfalso; lia|]; rewrite zlen_cons in *;
      let m := eval compute in (Zpos n - 1) in
      lazymatch m with 0 => clear h | _ => match type of h with _ <= zlen ?l' + 1 => let h' := fresh "ha" in assert (h' : m <= zlen l') by lia; clear h end end end;
    cbn [effect skipn top nth]; rewrite ?zlen_cons; lia.
Qed.
Lemma effects_word ops : forall i s, forallb simple ops = true -> fits ops (zlen s) = true -> Forall is_word s ->
  Forall is_word (effects code ops i s) /\ zlen (effects code ops i s) = height ops (zlen s).
Proof.
  induction ops as [|b ops ih]; intros i s hs hf hw; [split; [exact hw|reflexivity]|]. cbn [forallb fits effects height] in *. apply andb_prop in hs. destruct hs as [hb hs]. apply andb_prop in hf. destruct hf as [hf hf2]. apply andb_prop in hf. destruct hf as [ha hr]. apply Z.leb_le in ha.
  pose proof (effect_len b i s hb ha) as e. rewrite <- e in hf2 |- *. apply ih; [exact hs|exact hf2|apply effect_word; assumption].
Qed.

(** ** One round for a super instruction *)
Definition price_ok' (op : Z) (ops : list Z) : Prop := staticGasPrice (p_revision p) op = fees ops.
Definition limit_ok (op : Z) (ops : list Z) : Prop := forall h, 0 <= h <= 1024 -> checkStackLimits h op = fits ops h.

(** the last instruction of a group may be any, the others are plain stack instructions *)
Lemma last_via (f : frame) (c : ctx) op a pre l i' : R f c -> fine f -> zlen (f_stack f) <= 1024 -> 0 <= c_pc c -> c_pc c < zlen lc -> znth lc (c_pc c) = Some (op, a) ->
  price_ok' op (pre ++ [l]) -> limit_ok op (pre ++ [l]) -> forallb simple pre = true -> 0 <= fee l ->
  walk (f_pc f) pre i' -> code_at code i' = l -> (exists ins, instruction l = Some ins /\ in_since ins = Istanbul /\ in_stateful ins = false) ->
  (forall g, 0 <= g -> R (with_gas g f) (set_gas g c) -> fine (with_gas g f) -> fits (pre ++ [l]) (zlen (f_stack f)) = true ->
     Forall is_word (effects code pre (f_pc f) (f_stack f)) -> 
     out_ok nextpos (exec l (with_pc i' (with_gas g (with_stack (effects code pre (f_pc f) (f_stack f)) f)))) (execute_op op (set_gas g c))) ->
  out_ok at_pos (run_for (length pre + 1) f) (lstep c).
Proof.
  intros hR hF hst hq hin hz hprice hlim hs hfl hw hl hi hk. pose proof (zlen_nonneg (f_stack f)) as hnn. pose proof (simple_fees pre hs) as hfp. destruct hF as [g1 g2 g3].
  rewrite run_for_app. pose proof (simple_run pre f i' hs hw g1) as X. unfold Lfvm.lstep. destruct (Z.leb_spec (zlen lc) (c_pc c)); [lia|]. rewrite hz, (r_stack _ _ hR).
  rewrite useGas_incr. rewrite (hlim (zlen (f_stack f)) ltac:(lia)), hprice. rewrite fits_app in *. rewrite fees_app. cbn [fits fees] in *. rewrite andb_true_r in *. rewrite Z.add_0_r.
  destruct (fits pre (zlen (f_stack f))) eqn:ef; cbn [andb] in *.
  2:{ destruct X as (e & f' & ->). cbn. eexists. reflexivity. }
  destruct (effects_word pre (f_pc f) (f_stack f) hs ef (r_words _ _ hR)) as [ew eh].
  assert (Y : forall f', out_ok at_pos (@Fail W OutOfGas f') (err c)) by (intros; eexists; reflexivity).
  destruct (Z.leb_spec (fees pre) (f_gas f)) as [hp|hp].
  2:{ destruct X as (e & f' & ->). destruct (negb _); [eexists; reflexivity|]. unfold useGas. rewrite (r_gas _ _ hR). destruct (Z.ltb_spec (f_gas f) (fees pre + fee l)); [|lia]. rewrite orb_true_r. eexists. reflexivity. }
  rewrite X. cbn [SpecEvm.run_for].
  pose proof (step_at (with_pc i' (with_gas (f_gas f - fees pre) (with_stack (effects code pre (f_pc f) (f_stack f)) f))) l hl hi) as Z1.
  cbn [f_stack with_pc with_gas with_stack] in Z1. rewrite eh in Z1.
  destruct ((args l <=? height pre (zlen (f_stack f))) && (height pre (zlen (f_stack f)) - args l + results l <=? 1024)) eqn:ea.
  2:{ destruct Z1 as [e ->]. cbn. eexists. reflexivity. }
  cbn [negb]. unfold useGas. rewrite (r_gas _ _ hR). destruct (Z.ltb_spec (f_gas f) 0); [lia|]. destruct (Z.ltb_spec (fees pre + fee l) 0); [lia|]. cbn [orb].
  assert (s1 : forall o : outcome W, match o with Next f1 => Next f1 | Halt h d f1 => Halt h d f1 | Fail e f1 => Fail e f1 end = o) by (intros []; reflexivity).
  rewrite s1, Z1. unfold charge. cbn [f_gas with_pc with_gas with_stack].
  destruct (Z.ltb_spec (f_gas f) (fees pre + fee l)), (Z.ltb_spec (f_gas f - fees pre) (fee l)); try lia; [eexists; reflexivity|].
  apply incr_ok. specialize (hk (f_gas f - (fees pre + fee l)) ltac:(lia) (R_gas _ _ _ hR) ltac:(apply fine_gas; [split; assumption|lia]) eq_refl ew).
  match goal with |- out_ok _ (exec _ ?x) _ => match type of hk with out_ok _ (exec _ ?y) _ => replace x with y; [exact hk|] end end.
  destruct f as [xpc xg xs xm xa xr xf xw]. unfold with_pc, with_gas, with_stack. cbn [f_pc f_gas f_stack f_mem f_active f_ret f_refund f_world]. f_equal. cbn [f_gas] in *. lia.
Qed.
(** all instructions of the group are plain stack instructions *)
Lemma pure_via (f : frame) (c : ctx) op a b ops j d : R f c -> fine f -> zlen (f_stack f) <= 1024 -> 0 <= c_pc c -> c_pc c < zlen lc -> znth lc (c_pc c) = Some (op, a) ->
  price_ok' op (b :: ops) -> limit_ok op (b :: ops) -> forallb simple (b :: ops) = true -> walk (f_pc f) (b :: ops) j -> 0 <= d -> loc j (c_pc c + d + 1) -> c_pc c + d + 1 < 2 ^ 31 ->
  (forall g, fits (b :: ops) (zlen (f_stack f)) = true -> c_stack c = f_stack f ->
     execute_op op (set_gas g c) = Ok (Cont (set_pc (c_pc c + d) (set_stack (effects code (b :: ops) (f_pc f) (f_stack f)) (set_gas g c))))) ->
  out_ok at_pos (run_for (length (b :: ops)) f) (lstep c).
Proof.
  intros hR hF hst hq hin hz hprice hlim hs hw hd hl h31 hk. pose proof (zlen_nonneg (f_stack f)) as hnn. pose proof (simple_fees _ hs) as hfp. destruct hF as [g1 g2 g3].
  pose proof (simple_run (b :: ops) f j hs hw g1) as X. unfold Lfvm.lstep. destruct (Z.leb_spec (zlen lc) (c_pc c)); [lia|]. rewrite hz, (r_stack _ _ hR).
  rewrite useGas_incr. rewrite (hlim (zlen (f_stack f)) ltac:(lia)), hprice. destruct (fits (b :: ops) (zlen (f_stack f))) eqn:ef.
  2:{ destruct X as (e & f' & ->). cbn. eexists. reflexivity. }
  cbn [negb]. rewrite andb_true_l in X. unfold useGas. rewrite (r_gas _ _ hR). destruct (Z.ltb_spec (f_gas f) 0); [lia|]. destruct (Z.ltb_spec (fees (b :: ops)) 0); [lia|]. cbn [orb].
  destruct (Z.leb_spec (fees (b :: ops)) (f_gas f)), (Z.ltb_spec (f_gas f) (fees (b :: ops))); try lia; [|destruct X as (e & f' & ->); eexists; reflexivity].
  rewrite X. rewrite (hk _ eq_refl (r_stack _ _ hR)). destruct (effects_word (b :: ops) (f_pc f) (f_stack f) hs ef (r_words _ _ hR)) as [ew _]. cbn [incr]. eexists. split; [reflexivity|]. split.
  - apply R_pc. destruct hR. split; cbn; auto.
  - cbn [f_pc with_pc c_pc set_pc]. rewrite i32_id by lia. left. exact hl.
Qed.

(** ** The groups *)
Ltac G0 := cbn [f_pc f_gas f_stack f_mem f_active f_ret f_refund f_world
  with_pc with_gas with_stack with_mem with_active with_ret add_refund with_world next yield touch
  c_pc c_gas c_refund c_stack c_store c_cost c_ret c_world
  set_pc set_gas set_refund set_stack set_store set_cost set_ret set_world] in *.
Ltac G := G0; repeat match goal with
  | |- context [with_gas ?v (mkFrame ?xa ?xb ?xc ?xd ?xe ?xf ?xg ?xh)] => change (with_gas v (mkFrame xa xb xc xd xe xf xg xh)) with (mkFrame xa v xc xd xe xf xg xh)
  | |- context [with_stack ?v (mkFrame ?xa ?xb ?xc ?xd ?xe ?xf ?xg ?xh)] => change (with_stack v (mkFrame xa xb xc xd xe xf xg xh)) with (mkFrame xa xb v xd xe xf xg xh)
  | |- context [with_mem ?v (mkFrame ?xa ?xb ?xc ?xd ?xe ?xf ?xg ?xh)] => change (with_mem v (mkFrame xa xb xc xd xe xf xg xh)) with (mkFrame xa xb xc v xe xf xg xh)
  | |- context [with_active ?v (mkFrame ?xa ?xb ?xc ?xd ?xe ?xf ?xg ?xh)] => change (with_active v (mkFrame xa xb xc xd xe xf xg xh)) with (mkFrame xa xb xc xd v xf xg xh)
  | |- context [with_ret ?v (mkFrame ?xa ?xb ?xc ?xd ?xe ?xf ?xg ?xh)] => change (with_ret v (mkFrame xa xb xc xd xe xf xg xh)) with (mkFrame xa xb xc xd xe v xg xh)
  | |- context [with_world ?v (mkFrame ?xa ?xb ?xc ?xd ?xe ?xf ?xg ?xh)] => change (with_world v (mkFrame xa xb xc xd xe xf xg xh)) with (mkFrame xa xb xc xd xe xf xg v)
  | |- context [with_pc ?v (mkFrame ?xa ?xb ?xc ?xd ?xe ?xf ?xg ?xh)] => change (with_pc v (mkFrame xa xb xc xd xe xf xg xh)) with (mkFrame v xb xc xd xe xf xg xh)
  | |- context [set_pc ?v (mkCtx ?xa ?xb ?xc ?xd ?xe ?xf ?xg ?xh)] => change (set_pc v (mkCtx xa xb xc xd xe xf xg xh)) with (mkCtx v xb xc xd xe xf xg xh)
  | |- context [set_gas ?v (mkCtx ?xa ?xb ?xc ?xd ?xe ?xf ?xg ?xh)] => change (set_gas v (mkCtx xa xb xc xd xe xf xg xh)) with (mkCtx xa v xc xd xe xf xg xh)
  | |- context [set_refund ?v (mkCtx ?xa ?xb ?xc ?xd ?xe ?xf ?xg ?xh)] => change (set_refund v (mkCtx xa xb xc xd xe xf xg xh)) with (mkCtx xa xb v xd xe xf xg xh)
  | |- context [set_stack ?v (mkCtx ?xa ?xb ?xc ?xd ?xe ?xf ?xg ?xh)] => change (set_stack v (mkCtx xa xb xc xd xe xf xg xh)) with (mkCtx xa xb xc v xe xf xg xh)
  | |- context [set_store ?v (mkCtx ?xa ?xb ?xc ?xd ?xe ?xf ?xg ?xh)] => change (set_store v (mkCtx xa xb xc xd xe xf xg xh)) with (mkCtx xa xb xc xd v xf xg xh)
  | |- context [set_cost ?v (mkCtx ?xa ?xb ?xc ?xd ?xe ?xf ?xg ?xh)] => change (set_cost v (mkCtx xa xb xc xd xe xf xg xh)) with (mkCtx xa xb xc xd xe v xg xh)
  | |- context [set_ret ?v (mkCtx ?xa ?xb ?xc ?xd ?xe ?xf ?xg ?xh)] => change (set_ret v (mkCtx xa xb xc xd xe xf xg xh)) with (mkCtx xa xb xc xd xe xf v xh)
  | |- context [set_world ?v (mkCtx ?xa ?xb ?xc ?xd ?xe ?xf ?xg ?xh)] => change (set_world v (mkCtx xa xb xc xd xe xf xg xh)) with (mkCtx xa xb xc xd xe xf xg v)
  end.
Lemma two_bytes i : data_bytes code (i + 1) 2 = [code_at code (i + 1); code_at code (i + 2)].
Proof. unfold data_bytes. change (Z.to_nat 2) with 2%nat. cbn [seq map Z.of_nat Pos.of_succ_nat Pos.succ]. unfold code_at. replace (i + 1 + 0) with (i + 1) by lia. replace (i + 1 + 1) with (i + 2) by lia. reflexivity. Qed.
Lemma one_byte i : data_bytes code (i + 1) 1 = [code_at code (i + 1)].
Proof. unfold data_bytes. change (Z.to_nat 1) with 1%nat. cbn [seq map Z.of_nat Pos.of_succ_nat Pos.succ]. unfold code_at. replace (i + 1 + 0) with (i + 1) by lia. reflexivity. Qed.
Lemma four_bytes i : data_bytes code (i + 1) 4 = [code_at code (i + 1); code_at code (i + 2); code_at code (i + 3); code_at code (i + 4)].
Proof. unfold data_bytes. change (Z.to_nat 4) with 4%nat. cbn [seq map Z.of_nat Pos.of_succ_nat Pos.succ]. unfold code_at. replace (i + 1 + 0) with (i + 1) by lia. replace (i + 1 + 1) with (i + 2) by lia. replace (i + 1 + 2) with (i + 3) by lia. replace (i + 1 + 3) with (i + 4) by lia. reflexivity. Qed.
Lemma be2 a b : be [a; b] = pack a b.
Proof. unfold be, pack. cbn [fold_left]. lia. Qed.
Lemma sset1_eq v a b s cpc g rf st co rt (w : W) (k : ctx -> res oc) : sset 1 v (mkCtx cpc g rf (a :: b :: s) st co rt w) k = k (mkCtx cpc g rf (a :: v :: s) st co rt w).
Proof. unfold sset. cbn [c_stack]. rewrite !zlen_cons. pose proof (zlen_nonneg s). destruct (Z.ltb_spec 1 (zlen s + 1 + 1)); [reflexivity|lia]. Qed.
Lemma sset2_eq v a b d s cpc g rf st co rt (w : W) (k : ctx -> res oc) : sset 2 v (mkCtx cpc g rf (a :: b :: d :: s) st co rt w) k = k (mkCtx cpc g rf (a :: b :: v :: s) st co rt w).
Proof. unfold sset. cbn [c_stack]. rewrite !zlen_cons. pose proof (zlen_nonneg s). destruct (Z.ltb_spec 2 (zlen s + 1 + 1 + 1)); [reflexivity|lia]. Qed.
Lemma speek1_eq a b s cpc g rf st co rt (w : W) (k : Z -> res oc) : speek 1 (mkCtx cpc g rf (a :: b :: s) st co rt w) k = k b.
Proof. reflexivity. Qed.
Lemma speek2_eq a b d s cpc g rf st co rt (w : W) (k : Z -> res oc) : speek 2 (mkCtx cpc g rf (a :: b :: d :: s) st co rt w) k = k d.
Proof. reflexivity. Qed.

Lemma price_super op ops : forallb (fun r => staticGasPrice r op =? fees ops) [0; 1; 2; 3; 4; 5] = true -> price_ok' op ops.
Proof.
  intros h. unfold price_ok'. rewrite forallb_forall in h. apply Z.eqb_eq. apply h. destruct (rev_cases p rv Hrev) as [[-> _]|[[-> _]|[[-> _]|[[-> _]|[[-> _]|[-> _]]]]]]; cbn; auto 8.
Qed.
Ltac nums := repeat match goal with |- context [args ?b] => let v := eval vm_compute in (args b) in change (args b) with v | |- context [results ?b] => let v := eval vm_compute in (results b) in change (results b) with v end.
Ltac numsin h := repeat match type of h with context [args ?b] => let v := eval vm_compute in (args b) in change (args b) with v in h | context [results ?b] => let v := eval vm_compute in (results b) in change (results b) with v in h end.
Ltac limit := let h := fresh "h" in let hh := fresh "hh" in intros h hh; unfold checkStackLimits;
  match goal with |- context [computeStackUsage ?o] => let v := eval vm_compute in (computeStackUsage o) in change (computeStackUsage o) with v end; cbv iota beta zeta;
  cbn [fits app]; nums; apply eq_iff_eq_true; rewrite ?andb_true_iff, ?negb_true_iff, ?Z.ltb_ge, ?Z.leb_le; lia.
Ltac fitsin h := cbn [fits app] in h; numsin h; rewrite ?andb_true_iff, ?Z.leb_le in h.
Ltac popn n := match goal with |- context [mkCtx _ _ _ ?l _ _ _ _] => let h := fresh "ha" in assert (h : n <= zlen l) by lia end;
  repeat match goal with h : Zpos ?n <= zlen ?l |- _ => is_var l; destruct l as [|?z l]; [change (zlen (@nil Z)) with 0 in h; exfalso; lia|]; rewrite ?zlen_cons in *;
      let m := eval compute in (Zpos n - 1) in
      lazymatch m with 0 => clear h | _ => match type of h with _ <= zlen ?l' + 1 => let h' := fresh "ha" in assert (h' : m <= zlen l') by lia; clear h end end end.
Ltac accs := repeat first [rewrite spop_eq | rewrite speek0_eq | rewrite speek1_eq | rewrite speek2_eq | rewrite sset0_eq | rewrite sset1_eq | rewrite sset2_eq | rewrite spush_eq by (rewrite ?zlen_cons in *; lia)].

(** math/bits.Add64 on four limbs *)
Lemma add_limbs t a : is_word t -> is_byte a ->
  (let l i := u64 (Z.shiftr t (64 * i)) in
    let add x y carry := (u64 (x + y + carry), (x + y + carry) / 2 ^ 64) in
    let '(r0, carry) := add (l 0) a 0 in
    let '(r1, carry) := add (l 1) 0 carry in
    let '(r2, carry) := add (l 2) 0 carry in
    let '(r3, _) := add (l 3) 0 carry in
    r0 + r1 * 2 ^ 64 + r2 * 2 ^ 128 + r3 * 2 ^ 192) = to_word (a + t).
Proof.
  intros ht ha. unfold is_word in ht. unfold is_byte in ha. cbv zeta beta iota. unfold u64. rewrite !Z.shiftr_div_pow2 by lia.
  change (64 * 0) with 0. change (64 * 1) with 64. change (64 * 2) with 128. change (64 * 3) with 192. rewrite Z.pow_0_r, Z.div_1_r.
  set (B := 2 ^ 64). assert (hB : 0 < B) by (unfold B; lia). 
  pose (q1 := t / B). pose (q2 := q1 / B). pose (q3 := q2 / B).
  assert (e2 : t / 2 ^ 128 = q2) by (unfold q2, q1, B; rewrite Z.div_div by lia; reflexivity).
  assert (e3 : t / 2 ^ 192 = q3) by (unfold q3, q2, q1, B; rewrite !Z.div_div by lia; reflexivity).
  rewrite e2, e3. change (t / B) with q1.
  pose proof (Z.div_mod t B ltac:(lia)) as d0. fold q1 in d0. pose proof (Z.div_mod q1 B ltac:(lia)) as d1. fold q2 in d1. pose proof (Z.div_mod q2 B ltac:(lia)) as d2. fold q3 in d2.
  assert (hq3 : 0 <= q3 < B). { rewrite <- e3. unfold B. split; [apply Z.div_pos; lia|apply Z.div_lt_upper_bound; lia]. }
  rewrite (Z.mod_small q3 B) by exact hq3.
  set (x0 := t mod B) in *. set (x1 := q1 mod B) in *. set (x2 := q2 mod B) in *.
  pose proof (Z.mod_pos_bound t B hB) as b0. fold x0 in b0. pose proof (Z.mod_pos_bound q1 B hB) as b1. fold x1 in b1. pose proof (Z.mod_pos_bound q2 B hB) as b2. fold x2 in b2.
  rewrite !Z.add_0_r. set (s0 := x0 + a) in *. set (c0 := s0 / B) in *. set (s1 := x1 + c0) in *. set (c1 := s1 / B) in *. set (s2 := x2 + c1) in *. set (c2 := s2 / B) in *. set (s3 := q3 + c2) in *. 
  pose proof (Z.div_mod s0 B ltac:(lia)) as f0. fold c0 in f0. pose proof (Z.div_mod s1 B ltac:(lia)) as f1. fold c1 in f1. pose proof (Z.div_mod s2 B ltac:(lia)) as f2. fold c2 in f2. pose proof (Z.div_mod s3 B ltac:(lia)) as f3. 
  pose proof (Z.mod_pos_bound s0 B hB) as g0. pose proof (Z.mod_pos_bound s1 B hB) as g1. pose proof (Z.mod_pos_bound s2 B hB) as g2. pose proof (Z.mod_pos_bound s3 B hB) as g3.
  unfold to_word. apply Z.mod_unique with (s3 / B). 
  - left. unfold U. change (2 ^ 128) with (B * 2 ^ 64). change (2 ^ 192) with (B * 2 ^ 128). unfold B in *. lia.
  - unfold U. unfold s3, s2, s1, s0 in *. unfold B in *. lia.
Qed.
Lemma jumpTo_small d (c : ctx) : 0 <= d < 2 ^ 31 -> jumpTo lc d c = checkJumpDest lc (set_pc (i32 (d - 1)) c).
Proof.
  intros h. unfold jumpTo, isUint64. destruct (Z.ltb_spec d (2 ^ 64)); [|lia]. rewrite u64_small by lia. destruct (Z.ltb_spec (2 ^ 31 - 1) d); [lia|]. cbn [negb orb]. rewrite (i32_id d) by lia. reflexivity.
Qed.

Definition narrow (f : frame) : Prop :=
  slice code (f_pc f) 4 = [0x91; 0x90; 0x50; 0x56] -> forall a b d s, f_stack f = a :: b :: d :: s -> d < 2 ^ 31.
Ltac pure d := match goal with hg : LfvmConv.walk _ _ (decompose ?op) _ |- _ => let v := eval vm_compute in (decompose op) in change (decompose op) with v in hg end;
  match goal with hw : LfvmConv.walk _ _ (?b :: ?ops) ?j, hz : znth lc _ = Some (?op, ?a) |- _ => exists (length (b :: ops)); split; [let v := eval vm_compute in (removelast (b :: ops)) in let w := eval vm_compute in (List.last (b :: ops) 0) in exists v, w, j; split; [exact hw|]; split; reflexivity|];
    apply (pure_via _ _ op a b ops j d); try assumption; lazymatch goal with |- price_ok' _ _ => apply price_super; vm_compute; reflexivity | |- limit_ok _ _ => limit | |- forallb _ _ = true => reflexivity | |- _ <= _ => lia | |- _ < _ => lia | |- _ => idtac end end.

Ltac cfin := let g := fresh "g" in let hf := fresh "hf" in let hc := fresh "hc" in intros g hf hc; fitsin hf;
  match goal with c : Lfvm.ctx W |- _ => destruct c as [cpc cg crf cs cst cco crt cw] end; cbn [c_stack c_pc set_gas set_stack set_pc] in *; rewrite <- hc in *.
Ltac atq c := replace (c_pc c + 0 + 1) with (c_pc c + 1) by lia; assumption.
Ltac effs := cbn [effects effect skipn top nth]; repeat match goal with |- context [push_len ?b] => let v := eval vm_compute in (push_len b) in change (push_len b) with v end; rewrite ?Z.add_0_r.
Lemma walk_split pre l : forall i j, walk i (pre ++ [l]) j -> exists i', walk i pre i' /\ code_at code i' = l /\ j = i' + 1 + push_len l.
Proof.
  induction pre as [|b pre ih]; intros i j h; cbn [app] in h; inversion h as [|? ? ? ? h1 h2 h3 h4]; subst.
  - inversion h4; subst. exists i. repeat split; constructor.
  - destruct (ih _ _ h4) as (i' & k1 & k2 & k3). exists i'. repeat split; try assumption. apply walk_cons; auto.
Qed.
Ltac last pre l := match goal with hw : LfvmConv.walk _ _ (decompose ?op) _, hz : znth lc _ = Some (?op, ?a) |- _ => change (decompose op) with (pre ++ [l]) in hw; let i' := fresh "i'" in let hw1 := fresh "hw1" in let hw2 := fresh "hw2" in let hw3 := fresh "hw3" in
    destruct (walk_split pre l _ _ hw) as (i' & hw1 & hw2 & hw3); (let v := eval vm_compute in (push_len l) in change (push_len l) with v in hw3); exists (length pre + 1)%nat; split; [exists pre, l; eexists; split; [exact hw|]; split; reflexivity|];
    apply (last_via _ _ op a pre l i'); try assumption; lazymatch goal with |- price_ok' _ _ => apply price_super; vm_compute; reflexivity | |- limit_ok _ _ => limit | |- forallb _ _ = true => reflexivity | |- _ <= fee _ => vm_compute; discriminate | |- exists _, _ => eexists; split; [reflexivity|]; split; reflexivity | |- _ <= _ => lia | |- _ < _ => lia | |- _ => idtac end end.
Ltac lfin := let g := fresh "g" in let hg0 := fresh "hg0" in let hR1 := fresh "hR1" in let hF1 := fresh "hF1" in let hf := fresh "hf" in let hew := fresh "hew" in intros g hg0 hR1 hF1 hf hew; fitsin hf;
  match goal with hR : R ?f ?c |- _ => is_var f; let hc := fresh "hc" in pose proof (r_stack _ _ hR) as hc; destruct f as [xpc xg xs xm xa xr xf xw]; destruct c as [cpc cg crf cs cst cco crt cw]; G; subst cs end.
Lemma R_at (f : frame) (c : ctx) s i : R f c -> Forall is_word s -> R (with_pc i (with_stack s f)) (set_stack s c).
Proof. intros h hs. destruct h. split; cbn; auto. Qed.
Lemma cb i : is_byte (code_at code i).
Proof. apply data_at_byte. exact Hcode. Qed.
Lemma slice_tail {A} (l : list A) q n x t : 0 <= q -> 0 <= n -> slice l q (n + 1) = x :: t -> slice l (q + 1) n = t.
Proof.
  intros hq hn h. unfold slice in *. replace (Z.to_nat (n + 1)) with (S (Z.to_nat n)) in h by lia. replace (Z.to_nat (q + 1)) with (Z.to_nat q + 1)%nat by lia.
  rewrite <- (skipn_skipn' 1 (Z.to_nat q)). destruct (skipn (Z.to_nat q) l) as [|y l'] eqn:e; [discriminate|]. cbn in h |- *. congruence.
Qed.

Ltac jumps d s full := match goal with hR1 : R (mkFrame ?a _ ?l ?m ?ac ?r ?rf ?w) (mkCtx ?cp _ ?crf ?l ?st ?co ?rt ?cw), hg0 : 0 <= ?g, hw1 : LfvmConv.walk _ _ _ ?i' |- _ =>
  let hR2 := fresh "hR2" in assert (hR2 : R (mkFrame i' g full m ac r rf w) (mkCtx cp g crf full st co rt cw)) by (apply (R_at _ _ full i' (R_gas _ _ g hR1)); repeat apply Forall_cons; assumption);
  apply (jump_sim p super lc Hsize Hloc _ _ d s hR2) end.
Ltac falls s := eexists; split; [reflexivity|]; split; [match goal with hR1 : R (mkFrame _ _ _ _ _ _ _ _) (mkCtx _ _ _ _ _ _ _ _), hg0 : 0 <= ?g |- _ => let hq := fresh in assert (hq : Forall is_word s) by assumption; apply (fun h => R_at _ _ s 0 h hq) in hR1; apply (R_gas _ _ g) in hR1; destruct hR1; split; assumption end|];
  unfold LfvmStep.nextpos; cbn [f_pc with_pc with_stack with_gas c_pc set_stack set_gas next yield]; rewrite i32_id by lia; left; match goal with h : loc ?x _ |- loc ?y _ => replace y with x by lia; exact h end.
Lemma slice4 i a b d e : 0 <= i -> i + 3 < zlen code -> code_at code i = a -> code_at code (i + 1) = b -> code_at code (i + 2) = d -> code_at code (i + 3) = e -> slice code i 4 = [a; b; d; e].
Proof.
  intros h0 h3 ea eb ed ee. unfold slice. rewrite (LfvmConv.skipn_cons code i), ea by lia. rewrite (LfvmConv.skipn_cons code (i + 1)), eb by lia. replace (i + 1 + 1) with (i + 2) by lia. rewrite (LfvmConv.skipn_cons code (i + 2)), ed by lia.
  replace (i + 2 + 1) with (i + 3) by lia. rewrite (LfvmConv.skipn_cons code (i + 3)), ee by lia. reflexivity.
Qed.
Ltac wds := match goal with hR : R (mkFrame _ _ _ _ _ _ _ _) (mkCtx _ _ _ _ _ _ _ _) |- _ => let h := fresh "hws" in pose proof (r_words _ _ hR) as h; cbn [f_stack] in h end; repeat match goal with h : Forall is_word (_ :: _) |- _ => let h1 := fresh "hw" in pose proof (Forall_inv h) as h1; apply Forall_inv_tail in h end.

Lemma group_sim (f : frame) (c : ctx) e n : R f c -> fine f -> zlen (f_stack f) <= 1024 -> loc (f_pc f) (c_pc c) -> group code (f_pc f) e n ->
  slice lc (c_pc c) (zlen e) = e -> loc (f_pc f + n + 1) (c_pc c + zlen e) -> narrow f ->
  exists k, (exists pre l j, walk (f_pc f) (pre ++ [l]) j /\ forallb simple pre = true /\ k = length (pre ++ [l])) /\ out_ok at_pos (run_for k f) (lstep c).
Proof.
  intros hR hF hst hl hg hs hl2 hnw. pose proof (lo_i _ _ _ _ _ hl) as hi. pose proof (lo_q _ _ _ _ _ hl) as hq. pose proof (lo_le _ _ _ _ _ hl) as hle. pose proof (lo_in _ _ _ _ _ hl2) as hin2.
  pose proof (lo_le _ _ _ _ _ hl2) as hle2.
  destruct (group_walk code _ _ _ hg) as (op & a & t & ee & hw & _ & hez & hn & hns & _).
  assert (hz : znth lc (c_pc c) = Some (op, a) /\ c_pc c < zlen lc) by (rewrite ee in hs; apply (slice_znth _ _ _ _ _ hq hs)). destruct hz as [hz hlt].
  assert (h31 : c_pc c + zlen e < 2 ^ 31) by lia.
  destruct hg; injection ee as <- <- ht; clear ht; match goal with h : loc _ (_ + zlen ?l) |- _ => let v := eval vm_compute in (zlen l) in change (zlen l) with v in * end.
  - (* PUSH1 PUSH4 DUP3 *)
    pure 2; [replace (c_pc c + 2 + 1) with (c_pc c + 3) by lia; exact hl2|]. cfin.
    assert (h0 : znth lc cpc = Some (L_PUSH1_PUSH4_DUP3, pack (code_at code (f_pc f + 1)) 0)) by exact hz.
    assert (hargs : slice lc (cpc + 1) 2 = [(L_DATA, pack (code_at code (f_pc f + 3)) (code_at code (f_pc f + 4))); (L_DATA, pack (code_at code (f_pc f + 5)) (code_at code (f_pc f + 6)))]).
    { rewrite (slice_tail lc cpc 2) with (x := (L_PUSH1_PUSH4_DUP3, pack (code_at code (f_pc f + 1)) 0)) (t := [(L_DATA, pack (code_at code (f_pc f + 3)) (code_at code (f_pc f + 4))); (L_DATA, pack (code_at code (f_pc f + 5)) (code_at code (f_pc f + 6)))]); [reflexivity|lia|lia|exact hs]. }
    popn 1. change (execute_op L_PUSH1_PUSH4_DUP3) with (opPush1_Push4_Dup3 (W:=W) lc). unfold opPush1_Push4_Dup3, opPush1, opPush4, opDup, sdup, pushValue, ok, arg_at, args_at. G. rewrite hz. accs. cbn [andThen]. G.
    destruct (Z.leb_spec 0 (cpc + 1)); [|lia]. destruct (Z.leb_spec (cpc + 1 + 2) (zlen lc)); [|lia]. cbn [andb]. rewrite hargs. cbn [map snd nth]. accs. cbn [andThen]. G. change (3 - 1) with 2. accs.
    effs. rewrite one_byte, four_bytes.
    replace (Z.shiftr (pack (code_at code (f_pc f + 1)) 0) 8) with (be [code_at code (f_pc f + 1)]).
    2:{ rewrite be_one, Z.shiftr_div_pow2 by lia. change (2 ^ 8) with 256. symmetry. apply (proj1 (unpair (code_at code (f_pc f + 1)) 0 (cb _) ltac:(unfold is_byte; lia))). }
    match goal with |- context [Z.lor ?x ?y] => replace (Z.lor x y) with (be [code_at code (f_pc f + 3); code_at code (f_pc f + 4); code_at code (f_pc f + 5); code_at code (f_pc f + 6)]) end.
    2:{ rewrite lor_low by (pose proof (pack_range _ _ (cb (f_pc f + 5)) (cb (f_pc f + 6))); lia). unfold be, pack. cbn [fold_left]. lia. }
    replace (cpc + 1 + 1) with (cpc + 2) by lia. replace (f_pc f + 1 + 1 + 1) with (f_pc f + 3) by lia. replace (f_pc f + 1 + 1 + 2) with (f_pc f + 4) by lia. replace (f_pc f + 1 + 1 + 3) with (f_pc f + 5) by lia. replace (f_pc f + 1 + 1 + 4) with (f_pc f + 6) by lia. reflexivity.
  - (* PUSH1 PUSH1 PUSH1 SHL SUB *)
    pure 1; [replace (c_pc c + 1 + 1) with (c_pc c + 2) by lia; exact hl2|]. cfin.
    assert (h1 : znth lc (cpc + 1) = Some (L_DATA, code_at code (f_pc f + 5))).
    { apply (slice_znth lc (cpc + 1) 1 _ []); [lia|]. rewrite (slice_tail lc cpc 1) with (x := (L_PUSH1_PUSH1_PUSH1_SHL_SUB, pack (code_at code (f_pc f + 1)) (code_at code (f_pc f + 3)))) (t := [(L_DATA, code_at code (f_pc f + 5))]); [reflexivity|lia|lia|exact hs]. }
    change (execute_op L_PUSH1_PUSH1_PUSH1_SHL_SUB) with (opPush1_Push1_Push1_Shl_Sub (W:=W) lc). unfold opPush1_Push1_Push1_Shl_Sub, ok, arg_at. G. rewrite hz, h1. cbv zeta. accs.
    effs. rewrite !one_byte. rewrite !be_one. pose proof (cb (f_pc f + 1)) as b1. pose proof (cb (f_pc f + 3)) as b3. pose proof (cb (f_pc f + 5)) as b5.
    replace (f_pc f + 1 + 1 + 1 + 1 + 1) with (f_pc f + 5) by lia. replace (f_pc f + 1 + 1 + 1) with (f_pc f + 3) by lia.
    rewrite Z.shiftr_div_pow2 by lia. change (2 ^ 8) with 256. rewrite (Z.land_ones _ 8) by lia. change (2 ^ 8) with 256. destruct (unpair _ _ b1 b3) as [-> ->]. unfold is_byte in b1, b3, b5. rewrite !Z.mod_small by lia.
    rewrite u_shl_spec by (unfold is_word; lia). reflexivity.
  - (* AND SWAP1 POP SWAP2 SWAP1 *)
    pure 0; [atq c|]. cfin. popn 5. change (execute_op L_AND_SWAP1_POP_SWAP2_SWAP1) with (opAnd_Swap1_Pop_Swap2_Swap1 (W:=W)). unfold opAnd_Swap1_Pop_Swap2_Swap1, opSwap1_Pop_Swap2_Swap1, binary, ok. G. accs. cbn [andThen]. G. accs. effs. reflexivity.
  - (* ISZERO PUSH2 JUMPI *)
    last [0x15; 0x61] 0x57. lfin. popn 1. change (exec 0x57) with (i_jumpi (W:=W) (is_dest code)). change (execute_op L_ISZERO_PUSH2_JUMPI) with (opIsZero_Push2_Jumpi (W:=W) lc). effs. rewrite two_bytes, be2. unfold i_jumpi, opIsZero_Push2_Jumpi, opPush2_Jump, arg_at, ok. G. accs. G. rewrite hz. wds.
    replace (xpc + 1 + 1) with (xpc + 2) in * by lia. replace (xpc + 1 + 2) with (xpc + 3) in * by lia.
    pose proof (pack_range _ _ (cb (xpc + 2)) (cb (xpc + 3))) as hpk. set (d := pack _ _) in *. assert (hdw : is_word d) by (unfold is_word; lia). rewrite <- jumpTo_small by lia.
    pose proof (bool_word_range (z =? 0)) as hbw. destruct (Z.eqb_spec z 0); cbn [bool_word] in *; [|falls xs].  change (1 =? 0) with false. cbv iota. jumps d xs (d :: 1 :: xs); try assumption. cbn [f_pc]; lia.
  - (* SWAP2 SWAP1 POP JUMP *)
    last [0x91; 0x90; 0x50] 0x56. lfin. popn 3. change (exec 0x56) with (i_jump (W:=W) (is_dest code)). change (execute_op L_SWAP2_SWAP1_POP_JUMP) with (opSwap2_Swap1_Pop_Jump (W:=W) lc). effs. unfold i_jump, opSwap2_Swap1_Pop_Jump. G. accs. wds.
    assert (hd : z1 < 2 ^ 31) by (refine (hnw _ _ _ _ _ eq_refl); apply slice4; assumption). 
    match goal with h : is_word z1 |- _ => pose proof h as hd0; unfold is_word in hd0 end. rewrite u64_small, (i32_id z1) by lia. G. accs. match goal with |- context [mkCtx (i32 (z1 - 1)) ?b1 ?b2 ?b3 ?b4 ?b5 ?b6 ?b7] => change (mkCtx (i32 (z1 - 1)) b1 b2 b3 b4 b5 b6 b7) with (set_pc (i32 (z1 - 1)) (mkCtx cpc b1 b2 b3 b4 b5 b6 b7)) end. rewrite <- jumpTo_small by lia. jumps z1 (z :: xs) (z1 :: z :: xs); try (repeat apply Forall_cons; assumption). cbn [f_pc]; lia.
  - (* SWAP1 POP SWAP2 SWAP1 *)
    pure 0; [atq c|]. cfin. popn 4. change (execute_op L_SWAP1_POP_SWAP2_SWAP1) with (opSwap1_Pop_Swap2_Swap1 (W:=W)). unfold opSwap1_Pop_Swap2_Swap1, ok. G. accs. effs. reflexivity.
  - (* POP SWAP2 SWAP1 POP *)
    pure 0; [atq c|]. cfin. popn 4. change (execute_op L_POP_SWAP2_SWAP1_POP) with (opPop_Swap2_Swap1_Pop (W:=W)). unfold opPop_Swap2_Swap1_Pop, ok. G. accs. effs. reflexivity.
  - (* PUSH2 JUMP *)
    last [0x61] 0x56. lfin. change (exec 0x56) with (i_jump (W:=W) (is_dest code)). change (execute_op L_PUSH2_JUMP) with (opPush2_Jump (W:=W) lc). effs. rewrite two_bytes, be2. unfold i_jump, opPush2_Jump, arg_at. G. rewrite hz. wds.
    pose proof (pack_range _ _ (cb (xpc + 1)) (cb (xpc + 2))) as hpk. set (d := pack _ _) in *. assert (hdw : is_word d) by (unfold is_word; lia). rewrite <- jumpTo_small by lia. jumps d xs (d :: xs); try assumption. cbn [f_pc]; lia.
  - (* PUSH2 JUMPI *)
    last [0x61] 0x57. lfin. popn 1. change (exec 0x57) with (i_jumpi (W:=W) (is_dest code)). change (execute_op L_PUSH2_JUMPI) with (opPush2_Jumpi (W:=W) lc). effs. rewrite two_bytes, be2. unfold i_jumpi, opPush2_Jumpi, opPush2_Jump, arg_at, ok. G. accs. G. rewrite hz. wds.
    pose proof (pack_range _ _ (cb (xpc + 1)) (cb (xpc + 2))) as hpk. set (d := pack _ _) in *. assert (hdw : is_word d) by (unfold is_word; lia). rewrite <- jumpTo_small by lia.
    destruct (Z.eqb_spec z 0); [falls xs|]. jumps d xs (d :: z :: xs); try assumption. cbn [f_pc]; lia.
  - (* PUSH1 PUSH1 *)
    pure 0; [atq c|]. cfin. change (execute_op L_PUSH1_PUSH1) with (opPush1_Push1 (W:=W) lc). unfold opPush1_Push1, ok, arg_at. G. rewrite hz. accs. effs. rewrite !one_byte, !be_one.
    pose proof (cb (f_pc f + 1)) as b1. pose proof (cb (f_pc f + 3)) as b3. replace (f_pc f + 1 + 1 + 1) with (f_pc f + 3) by lia.
    rewrite Z.shiftr_div_pow2 by lia. change (2 ^ 8) with 256. rewrite (Z.land_ones _ 8) by lia. change (2 ^ 8) with 256. destruct (unpair _ _ b1 b3) as [-> ->]. reflexivity.
  - (* PUSH1 ADD *)
    pure 0; [atq c|]. cfin. popn 1. change (execute_op L_PUSH1_ADD) with (opPush1_Add (W:=W) lc). unfold opPush1_Add, unary, ok, arg_at. G. rewrite hz. accs. effs. rewrite !one_byte, !be_one.
    match goal with |- context [to_word (?x + ?y)] => let E := fresh "E" in assert (E : is_word y) ; [|apply (fun h => add_limbs y x h (cb _)) in E; cbv beta iota zeta in E; rewrite ?Z.add_0_r in E; rewrite <- E; reflexivity] end. apply r_words in hR. rewrite <- hc in hR. exact (Forall_inv hR).
  - (* PUSH1 SHL *)
    pure 0; [atq c|]. cfin. popn 1. change (execute_op L_PUSH1_SHL) with (opPush1_Shl (W:=W) lc). unfold opPush1_Shl, unary, ok, arg_at. G. rewrite hz. accs. effs. rewrite !one_byte, !be_one.
    pose proof (cb (f_pc f + 1)) as b1. unfold is_byte in b1. rewrite u_shl_spec; [reflexivity| |lia]. apply r_words in hR. rewrite <- hc in hR. exact (Forall_inv hR).
  - (* PUSH1 DUP1 *)
    pure 0; [atq c|]. cfin. change (execute_op L_PUSH1_DUP1) with (opPush1_Dup1 (W:=W) lc). unfold opPush1_Dup1, ok, arg_at. G. rewrite hz. accs. effs. rewrite !one_byte, !be_one. reflexivity.
  - (* SWAP1 POP *)
    pure 0; [atq c|]. cfin. popn 2. change (execute_op L_SWAP1_POP) with (opSwap1_Pop (W:=W)). unfold opSwap1_Pop, ok. G. accs. effs. reflexivity.
  - (* POP JUMP *)
    last [0x50] 0x56. lfin. popn 2. change (exec 0x56) with (i_jump (W:=W) (is_dest code)). change (execute_op L_POP_JUMP) with (opPop_Jump (W:=W) lc). effs. unfold i_jump, opPop_Jump, opJump. G. accs. wds.
    jumps z0 xs (z0 :: xs); try assumption. cbn [f_pc]; lia.
  - (* POP POP *)
    pure 0; [atq c|]. cfin. popn 2. change (execute_op L_POP_POP) with (opPopPop (W:=W)). unfold opPopPop, ok. G. accs. effs. reflexivity.
  - (* SWAP2 SWAP1 *)
    pure 0; [atq c|]. cfin. popn 3. change (execute_op L_SWAP2_SWAP1) with (opSwap2_Swap1 (W:=W)). unfold opSwap2_Swap1, ok. G. accs. effs. reflexivity.
  - (* SWAP2 POP *)
    pure 0; [atq c|]. cfin. popn 3. change (execute_op L_SWAP2_POP) with (opSwap2_Pop (W:=W)). unfold opSwap2_Pop, ok. G. accs. effs. reflexivity.
  - (* DUP2 MSTORE *)
    last [0x81] 0x52. lfin. popn 2. wds. change (execute_op L_DUP2_MSTORE) with (opDup2_Mstore (W:=W)). effs. change (exec 0x52) with (i_mstore (W:=W)).
    refine (sim_mstore _ (mkFrame i' g (z0 :: z :: z0 :: xs) xm xa xr xf xw) (mkCtx cpc g crf (z0 :: z :: z0 :: xs) cst cco crt cw) _ _ _ _ _).
    + apply (R_at _ _ (z0 :: z :: z0 :: xs) i' (R_gas _ _ g hR)). repeat apply Forall_cons; assumption.
    + destruct hF1 as [y1 y2 y3]. split; cbn [f_gas f_active f_pc f_stack with_gas] in *; assumption.
    + cbn [f_stack]. rewrite !zlen_cons. pose proof (zlen_nonneg xs). lia.
    + cbn [f_stack]. rewrite !zlen_cons. lia.
    + unfold LfvmStep.nextpos. cbn [f_pc c_pc]. rewrite i32_id by lia. left. replace (i' + 1) with (xpc + 1 + 1) by lia. exact hl2.
  - (* DUP2 LT *)
    pure 0; [atq c|]. cfin. popn 2. change (execute_op L_DUP2_LT) with (opDup2_Lt (W:=W)). unfold opDup2_Lt, ok. G. accs. effs. reflexivity.
Qed.
End Super.
