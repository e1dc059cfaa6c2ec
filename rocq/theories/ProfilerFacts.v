(** The profiler's counters after any tree of nested runs. *)
From Verif Require Import Base Opcodes JumpFacts SimBase Profiler.
From Coq Require Import Lia ZArith List Bool Sorted.

Section RunInd.
Variable P : run -> Prop.
Hypothesis HP : forall t0 body t1, Forall (fun i => Forall P (instr_nested i)) body -> P (Run t0 body t1).
Fixpoint run_ind2 (r : run) : P r :=
  match r with
  | Run t0 body t1 =>
    HP t0 body t1
      ((fix go (l : list instr_run) : Forall (fun i => Forall P (instr_nested i)) l :=
          match l with
          | [] => Forall_nil _
          | i :: l' =>
            Forall_cons i
              (match i as i return Forall P (instr_nested i) with
               | (_, _, ns, _) =>
                 (fix nested (ns : list run) : Forall P ns :=
                    match ns with [] => Forall_nil _ | n :: ns' => Forall_cons n (run_ind2 n) (nested ns') end) ns
               end) (go l')
          end) body)
  end.
End RunInd.

Lemma hook_steps_app mode h1 h2 p : hook_steps mode (h1 ++ h2) p = do! p <- hook_steps mode h1 p; hook_steps mode h2 p.
Proof.
  revert p; induction h1 as [|h h1 IH]; intros p; [reflexivity|].
  cbn [app hook_steps]. destruct (hook_step mode h p); cbn [rbind]; auto.
Qed.

Definition sel (mode : pmode) (b : Z) (i : instr_run) : bool := measured mode (instr_op i) && (opcode_value (instr_op i) =? b).
Definition icount (mode : pmode) (b : Z) (l : list instr_run) : Z := zlen (filter (sel mode b) l).
Definition iticks (mode : pmode) (b : Z) (l : list instr_run) : Z := zsum (map own_ticks (filter (sel mode b) l)).
Lemma icount_app mode b l1 l2 : icount mode b (l1 ++ l2) = icount mode b l1 + icount mode b l2.
Proof. unfold icount, zlen. rewrite filter_app, app_length. lia. Qed.
Lemma zsum_app l1 l2 : zsum (l1 ++ l2) = zsum l1 + zsum l2.
Proof. unfold zsum. induction l1; cbn; lia. Qed.
Lemma iticks_app mode b l1 l2 : iticks mode b (l1 ++ l2) = iticks mode b l1 + iticks mode b l2.
Proof. unfold iticks. rewrite filter_app, map_app, zsum_app. reflexivity. Qed.

(** [p'] is [p] with the instructions in [l] added to the profile and [top] outermost runs *)
Record added (mode : pmode) (l : list instr_run) (p p' : profiler) : Prop := mkAdded {
  ad_calls : forall b, pf_calls (pr_profile p') b mod 2 ^ 64 = (pf_calls (pr_profile p) b + icount mode b l) mod 2 ^ 64;
  ad_ticks : forall b, pf_ticks (pr_profile p') b mod 2 ^ 64 = (pf_ticks (pr_profile p) b + iticks mode b l) mod 2 ^ 64;
  ad_len : zlen (pr_calls p') = zlen (pr_calls p);
}.
Lemma added_nil mode p : added mode [] p p.
Proof. split; [intros b; f_equal; unfold icount; cbn; lia|intros b; f_equal; unfold iticks; cbn; lia|reflexivity]. Qed.
Lemma added_trans mode l1 l2 p p1 p2 : added mode l1 p p1 -> added mode l2 p1 p2 -> added mode (l1 ++ l2) p p2.
Proof.
  intros [A1 A2 A3] [B1 B2 B3]. split.
  - intros b. rewrite B1, icount_app, Z.add_assoc. rewrite <- Zplus_mod_idemp_l, A1, Zplus_mod_idemp_l. reflexivity.
  - intros b. rewrite B2, iticks_app, Z.add_assoc. rewrite <- Zplus_mod_idemp_l, A2, Zplus_mod_idemp_l. reflexivity.
  - congruence.
Qed.

Lemma cd_get_ok p i : 0 <= i < zlen (pr_calls p) -> exists c, cd_get p i = Ok c /\ znth (pr_calls p) i = Some c.
Proof.
  intros h. unfold cd_get. destruct (znth (pr_calls p) i) as [c|] eqn:E; [eauto|].
  apply znth_none in E. lia.
Qed.
Lemma cd_set_get p i j c : 0 <= i < zlen (pr_calls p) ->
  znth (pr_calls (cd_set p i c)) j = if j =? i then Some c else znth (pr_calls p) j.
Proof. intros h. unfold cd_set. cbn [pr_calls]. apply znth_list_upd. exact h. Qed.
Lemma cd_set_len p i c : zlen (pr_calls (cd_set p i c)) = zlen (pr_calls p).
Proof. unfold cd_set. cbn [pr_calls]. apply list_upd_zlen. Qed.

(** what is preserved for the frames below depth [d] *)
Definition below (d : Z) (p p' : profiler) : Prop := forall j, j < d -> znth (pr_calls p') j = znth (pr_calls p) j.
Definition istart_at (d : Z) (p : profiler) : option Z := option_map cd_istart (znth (pr_calls p) d).
Definition iend_at (d : Z) (p : profiler) : option Z := option_map cd_iend (znth (pr_calls p) d).

Definition times_in (d : Z) (r : run) : Prop := Forall (fun h => 0 <= hook_time h < kTicksNotMeasured) (hooks_of d r).

Definition run_ok mode (r : run) : Prop := forall d p, 0 <= d -> d + height r <= 1024 -> zlen (pr_calls p) = kCallDataSize ->
  well_nested r -> times_in d r ->
  exists p', hook_steps mode (hooks_of d r) p = Ok p' /\ added mode (all_instrs r) p p' /\ below d p p' /\
    istart_at d p' = Some (run_start r) /\ iend_at d p' = Some (run_stop r) /\
    (d <> 0 -> pf_icalls (pr_profile p') = pf_icalls (pr_profile p) /\ pf_iticks (pr_profile p') = pf_iticks (pr_profile p)) /\
    (d = 0 -> pf_icalls (pr_profile p') = u64 (pf_icalls (pr_profile p) + 1) /\
              pf_iticks (pr_profile p') = u64 (pf_iticks (pr_profile p) + u64 (run_stop r - run_start r))).

Lemma fold_max_in (l : list Z) x : In x l -> x <= fold_right Z.max 0 l.
Proof. induction l as [|y l IH]; cbn; [contradiction|]. intros [->|h]; [lia|]. specialize (IH h). lia. Qed.
Lemma fold_max_nn (l : list Z) : 0 <= fold_right Z.max 0 l.
Proof. induction l; cbn; lia. Qed.
Lemma height_nested t0 body t1 i n : In i body -> In n (instr_nested i) -> 1 + height n <= height (Run t0 body t1).
Proof.
  intros Hi Hn. destruct i as [[[o a] ns] b]. cbn in Hn. cbn [height].
  apply Z.le_trans with (fold_right Z.max 0 (map (fun n => 1 + height n) ns)).
  2: { apply fold_max_in. apply in_map_iff. exists (o, a, ns, b). split; [reflexivity|exact Hi]. } apply fold_max_in. apply in_map_iff. exists n. split; [reflexivity|exact Hn].
Qed.
Lemma height_nn r : 0 <= height r. Proof. destruct r. cbn [height]. apply fold_max_nn. Qed.

(** runs nested in a call at depth [d - 1] *)
Lemma nested_ok mode ns d : Forall (run_ok mode) ns -> 0 < d -> (forall n, In n ns -> d + height n <= 1024) ->
  Forall well_nested ns -> Forall (times_in d) ns ->
  forall p, zlen (pr_calls p) = kCallDataSize ->
  exists p', hook_steps mode (flat_map (hooks_of d) ns) p = Ok p' /\ added mode (flat_map all_instrs ns) p p' /\ below d p p' /\
    pf_icalls (pr_profile p') = pf_icalls (pr_profile p) /\ pf_iticks (pr_profile p') = pf_iticks (pr_profile p) /\
    match rev ns with
    | [] => p' = p
    | n :: _ => istart_at d p' = Some (run_start n) /\ iend_at d p' = Some (run_stop n)
    end.
Proof.
  intros HP Hd. induction HP as [|n ns Hn Hns IH]; intros Hh Hw Ht p Hl.
  - exists p. split; [reflexivity|]. split; [apply added_nil|]. split; [intros ? ?; reflexivity|]. cbn [rev]. auto.
  - inversion Hw as [|? ? W1 W2]; subst. inversion Ht as [|? ? T1 T2]; subst.
    destruct (Hn d p) as (p1 & E1 & A1 & B1 & C1 & C2 & C3 & _); [lia|apply Hh; left; reflexivity|assumption..|].
    destruct C3 as [C3 C4]; [lia|].
    destruct (IH (fun n h => Hh n (or_intror h)) W2 T2 p1) as (p2 & E2 & A2 & B2 & D1 & D2 & D3).
    { rewrite (ad_len _ _ _ _ A1). exact Hl. }
    exists p2. cbn [flat_map]. rewrite hook_steps_app, E1. cbn [rbind]. split; [exact E2|].
    split; [eapply added_trans; eassumption|]. split; [intros j Hj; rewrite B2, B1 by exact Hj; reflexivity|].
    split; [congruence|]. split; [congruence|]. cbn [rev]. destruct (rev ns) as [|m ms] eqn:Er; cbn [app].
    + subst p2. split; assumption.
    + exact D3.
Qed.

Lemma added_one mode i p c st0 calls' : zlen calls' = zlen (pr_calls p) ->
  measured mode (instr_op i) = true -> c mod 2 ^ 64 = own_ticks i mod 2 ^ 64 ->
  added mode [i] p
    (mkProfiler (mkProfile (upd_at (pf_calls (pr_profile p)) (opcode_value (instr_op i)) (u64 (pf_calls (pr_profile p) (opcode_value (instr_op i)) + 1)))
       (upd_at (pf_ticks (pr_profile p)) (opcode_value (instr_op i)) (u64 (pf_ticks (pr_profile p) (opcode_value (instr_op i)) + c)))
       (pf_icalls (pr_profile p)) (pf_iticks (pr_profile p))) st0 calls').
Proof.
  intros Hl Hm Hc. split; cbn [pr_profile pf_calls pf_ticks pr_calls]; [| |exact Hl]; intros b; unfold upd_at, icount, iticks, sel, u64; cbn [filter];
    rewrite Hm; cbn [andb]; rewrite (Z.eqb_sym b); destruct (Z.eqb_spec (opcode_value (instr_op i)) b) as [->|]; cbn [map zsum fold_right].
  - rewrite Z.mod_mod by lia. reflexivity.
  - f_equal. unfold zlen. cbn. lia.
  - rewrite Z.mod_mod, Z.add_0_r by lia. rewrite <- (Zplus_mod_idemp_r c), Hc, Zplus_mod_idemp_r. reflexivity.
  - f_equal. lia.
Qed.

Lemma added_skip mode i p p' : measured mode (instr_op i) = false -> pr_profile p' = pr_profile p -> zlen (pr_calls p') = zlen (pr_calls p) -> added mode [i] p p'.
Proof.
  intros Hm Hp Hl. split; [| |exact Hl]; intros b; rewrite Hp; f_equal; unfold icount, iticks, sel; cbn [filter]; rewrite Hm; cbn; lia.
Qed.

Lemma added_profile mode l p q p' : pr_profile q = pr_profile p -> zlen (pr_calls q) = zlen (pr_calls p) -> added mode l q p' -> added mode l p p'.
Proof. intros E1 E2 [A1 A2 A3]. rewrite E1 in *. split; [exact A1|exact A2|congruence]. Qed.

Lemma icount_perm mode b i l : icount mode b (l ++ [i]) = icount mode b (i :: l).
Proof. change (i :: l) with ([i] ++ l). rewrite !icount_app. lia. Qed.
Lemma iticks_perm mode b i l : iticks mode b (l ++ [i]) = iticks mode b (i :: l).
Proof. change (i :: l) with ([i] ++ l). rewrite !iticks_app. lia. Qed.
Lemma added_rot mode i l p p' : added mode (l ++ [i]) p p' -> added mode (i :: l) p p'.
Proof. intros [A1 A2 A3]. split; intros; [rewrite <- icount_perm; apply A1|rewrite <- iticks_perm; apply A2|exact A3]. Qed.

Lemma istart_below d p p' : below d p p' -> forall j, j < d -> istart_at j p' = istart_at j p.
Proof. intros B j Hj. unfold istart_at. rewrite B by exact Hj. reflexivity. Qed.

(** one instruction at depth [d] with its nested runs *)
Lemma instr_ok mode d (i : instr_run) : Forall (run_ok mode) (instr_nested i) -> 0 <= d -> d <= 1024 ->
  (forall n, In n (instr_nested i) -> d + 1 + height n <= 1024) ->
  (is_call_opcode (instr_op i) = false -> instr_nested i = []) ->
  Forall well_nested (instr_nested i) -> Forall (times_in (d + 1)) (instr_nested i) ->
  forall p, zlen (pr_calls p) = kCallDataSize ->
  exists p', hook_steps mode (match i with (o, a, ns, b) => HPre o d a :: flat_map (hooks_of (d + 1)) ns ++ [HPost o d b] end) p = Ok p' /\
    added mode (i :: flat_map all_instrs (instr_nested i)) p p' /\ below d p p' /\ istart_at d p' = istart_at d p /\
    pf_icalls (pr_profile p') = pf_icalls (pr_profile p) /\ pf_iticks (pr_profile p') = pf_iticks (pr_profile p).
Proof.
  destruct i as [[[o a] ns] b]. cbn [instr_op instr_nested fst snd]. intros HP Hd0 Hd Hh Hc Hw Ht p Hl.
  assert (Hsz : kCallDataSize = 1026) by reflexivity.
  cbn [hook_steps hook_step].
  destruct (is_call_opcode o) eqn:Ec.
  - assert (Hm : measured mode o = true) by (unfold measured; destruct mode; [reflexivity|rewrite Ec; apply orb_true_r]).
    unfold prof_pre. rewrite Hm, Ec. cbn [negb].
    destruct (cd_get_ok p d) as (c & E1 & E1'); [lia|]. rewrite E1. cbn [rbind].
    set (p1 := cd_set p d _).
    assert (L1 : zlen (pr_calls p1) = kCallDataSize) by (unfold p1; rewrite cd_set_len; exact Hl).
    destruct (cd_get_ok p1 (d + 1)) as (c1 & E2 & E2'); [lia|]. rewrite E2. cbn [rbind].
    set (p2 := cd_set p1 (d + 1) _).
    assert (L2 : zlen (pr_calls p2) = kCallDataSize) by (unfold p2; rewrite cd_set_len; exact L1).
    destruct (nested_ok mode ns (d + 1) HP ltac:(lia) Hh Hw Ht p2 L2) as (p3 & E3 & A3 & B3 & C1 & C2 & C3). rewrite hook_steps_app, E3. cbn [rbind hook_steps hook_step].
    assert (L3 : zlen (pr_calls p3) = kCallDataSize) by (rewrite (ad_len _ _ _ _ A3); exact L2).
    unfold prof_post. rewrite Hm, Ec. cbn [negb].
    assert (D3 : znth (pr_calls p3) d = Some (mkCall (cd_istart c) (cd_iend c) a)).
    { rewrite B3 by lia. unfold p2. rewrite cd_set_get by lia. destruct (Z.eqb_spec d (d + 1)); [lia|].
      unfold p1. rewrite cd_set_get by lia. rewrite Z.eqb_refl. reflexivity. }
    unfold cd_get at 1. rewrite D3. cbn [rbind cd_cstart].
    destruct (cd_get_ok p3 (d + 1)) as (ci & E4 & E4'); [lia|]. rewrite E4. cbn [rbind].
    eexists. split; [reflexivity|]. split.
    { apply added_rot. eapply added_trans; [eapply added_profile; [| |exact A3]; [reflexivity|lia]|].
      apply (added_one mode (o, a, ns, b) p3); [reflexivity|exact Hm|].
      unfold own_ticks, instr_time. cbn [instr_nested fst snd].
      destruct (rev ns) as [|n rs] eqn:Er.
      - subst p3. unfold p2 in E4'. rewrite cd_set_get in E4' by lia. rewrite Z.eqb_refl in E4'. injection E4' as <-.
        cbn [cd_istart]. rewrite Z.eqb_refl. cbn [negb]. unfold u64. rewrite Z.mod_mod by lia. f_equal. lia.
      - destruct C3 as [C3 C4]. unfold istart_at, iend_at in C3, C4. rewrite E4' in C3, C4. cbn [option_map] in C3, C4. injection C3 as C3. injection C4 as C4.
        assert (Hin : In n ns) by (rewrite in_rev, Er; left; reflexivity).
        rewrite Forall_forall in Ht. pose proof (Ht n Hin) as Tn. destruct n as [t0 bd t1]. unfold times_in in Tn. cbn [hooks_of] in Tn.
        inversion Tn as [|? ? T0 _]; subst. cbn [hook_time] in T0. rewrite C3. cbn [run_start run_stop].
        destruct (Z.eqb_spec t0 kTicksNotMeasured); [lia|]. cbn [negb]. rewrite C4. unfold u64. cbn [run_stop].
        rewrite Z.mod_mod by lia. rewrite <- Zminus_mod. reflexivity. }
    cbn [pr_profile pf_icalls pf_iticks]. split; [|split; [|split]].
    + intros j Hj. cbn [pr_calls]. rewrite B3 by lia. unfold p2. rewrite cd_set_get by lia. destruct (Z.eqb_spec j (d + 1)); [lia|].
      unfold p1. rewrite cd_set_get by lia. destruct (Z.eqb_spec j d); [lia|reflexivity].
    + unfold istart_at. cbn [pr_calls]. rewrite D3, E1'. reflexivity.
    + rewrite C1. reflexivity.
    + rewrite C2. reflexivity.
  - rewrite (Hc eq_refl) in *. cbn [flat_map app hook_steps rbind]. unfold prof_pre, prof_post, hook_step.
    destruct (measured mode o) eqn:Hm; cbn [negb].
    + rewrite Ec. cbn [rbind hook_steps hook_step]. unfold prof_post. rewrite Hm, Ec. cbn [rbind pr_profile pr_start pr_calls negb].
      eexists. split; [reflexivity|]. split.
      { apply (added_one mode (o, a, [], b)); [reflexivity|exact Hm|].
        unfold own_ticks, instr_time, u64, upd_at. cbn [instr_nested fst snd rev]. rewrite Z.eqb_refl, Z.mod_mod, Z.sub_0_r by lia. reflexivity. }
      split; [intros j Hj; reflexivity|]. split; [reflexivity|]. split; reflexivity.
    + cbn [rbind hook_steps hook_step]. unfold prof_post. rewrite Hm. cbn [negb rbind]. exists p. split; [reflexivity|]. split.
      { apply added_skip; [exact Hm|reflexivity|reflexivity]. }
      split; [intros j Hj; reflexivity|]. split; [reflexivity|]. split; reflexivity.
Qed.

Lemma body_ok mode d (body : list instr_run) :
  Forall (fun i => Forall (run_ok mode) (instr_nested i) /\
    (forall n, In n (instr_nested i) -> d + 1 + height n <= 1024) /\
    (is_call_opcode (instr_op i) = false -> instr_nested i = []) /\
    Forall well_nested (instr_nested i) /\ Forall (times_in (d + 1)) (instr_nested i)) body ->
  0 <= d -> d <= 1024 -> forall p, zlen (pr_calls p) = kCallDataSize ->
  exists p', hook_steps mode (flat_map (fun i : instr_run => match i with (o, a, ns, b) => HPre o d a :: flat_map (hooks_of (d + 1)) ns ++ [HPost o d b] end) body) p = Ok p' /\
    added mode (flat_map (fun i : instr_run => i :: match i with (_, _, ns, _) => flat_map all_instrs ns end) body) p p' /\ below d p p' /\ istart_at d p' = istart_at d p /\
    pf_icalls (pr_profile p') = pf_icalls (pr_profile p) /\ pf_iticks (pr_profile p') = pf_iticks (pr_profile p).
Proof.
  intros HB Hd0 Hd. induction HB as [|i body Hi HB IH]; intros p Hl.
  - exists p. split; [reflexivity|]. split; [apply added_nil|]. split; [intros ? ?; reflexivity|]. auto.
  - destruct Hi as (I1 & I2 & I3 & I4 & I5).
    destruct (instr_ok mode d i I1 Hd0 Hd I2 I3 I4 I5 p Hl) as (p1 & E1 & A1 & B1 & C1 & C2 & C3).
    destruct (IH p1) as (p2 & E2 & A2 & B2 & D1 & D2 & D3).
    { rewrite (ad_len _ _ _ _ A1). exact Hl. }
    exists p2. cbn [flat_map]. rewrite hook_steps_app, E1. cbn [rbind]. split; [exact E2|].
    split. { replace (match i with (_, _, ns, _) => flat_map all_instrs ns end) with (flat_map all_instrs (instr_nested i)) by (destruct i as [[[? ?] ?] ?]; reflexivity).
             eapply added_trans; eassumption. }
    split; [intros j Hj; rewrite B2, B1 by exact Hj; reflexivity|]. split; [congruence|]. split; congruence.
Qed.

Lemma Forall_flat_map {A B} (P : B -> Prop) (f : A -> list B) l : Forall P (flat_map f l) <-> Forall (fun x => Forall P (f x)) l.
Proof.
  rewrite !Forall_forall. split.
  - intros h x Hx. apply Forall_forall. intros y Hy. apply h. apply in_flat_map. eauto.
  - intros h y Hy. apply in_flat_map in Hy as (x & Hx & Hy). specialize (h x Hx). rewrite Forall_forall in h. auto.
Qed.

Theorem runs_ok mode r : run_ok mode r.
Proof.
  induction r as [t0 body t1 IH] using run_ind2. intros d p Hd Hh Hl Hw Ht.
  assert (Hd' : d <= 1024) by (pose proof (height_nn (Run t0 body t1)); lia).
  assert (Hsz : kCallDataSize = 1026) by reflexivity.
  cbn [hooks_of hook_steps hook_step]. unfold prof_pre_run.
  destruct (cd_get_ok p d) as (c & E1 & E1'); [lia|]. rewrite E1. cbn [rbind].
  set (p1 := cd_set p d _).
  assert (L1 : zlen (pr_calls p1) = kCallDataSize) by (unfold p1; rewrite cd_set_len; exact Hl).
  rewrite hook_steps_app.
  destruct (body_ok mode d body) with (p := p1) as (p2 & E2 & A2 & B2 & C1 & C2 & C3); [|lia..|exact L1|].
  { unfold well_nested in Hw. cbn [all_instrs] in Hw. rewrite Forall_flat_map in Hw.
    unfold times_in in Ht. cbn [hooks_of] in Ht. inversion Ht as [|? ? _ Ht']; subst. apply Forall_app in Ht' as [Ht' _].
    rewrite Forall_flat_map in Ht'. rewrite Forall_forall in *. intros i Hi. specialize (IH i Hi). specialize (Hw i Hi). specialize (Ht' i Hi).
    split; [exact IH|]. split; [intros n Hn; pose proof (height_nested t0 body t1 i n Hi Hn); lia|].
    destruct i as [[[o a] ns] b]. cbn [instr_nested instr_op fst snd] in *. inversion Hw as [|? ? W1 W2]; subst. split; [exact W1|].
    rewrite Forall_flat_map in W2. split; [exact W2|].
    inversion Ht' as [|? ? _ Ht2]; subst. apply Forall_app in Ht2 as [Ht2 _]. rewrite Forall_flat_map in Ht2. exact Ht2. }
  match goal with |- context [hook_steps mode (flat_map ?f body) p1] => change (hook_steps mode (flat_map f body) p1) with (hook_steps mode (flat_map (fun i : instr_run => match i with (o, a, ns, b) => HPre o d a :: flat_map (hooks_of (d + 1)) ns ++ [HPost o d b] end) body) p1) end.
  rewrite E2. cbn [rbind hook_steps hook_step]. unfold prof_post_run.
  assert (L2 : zlen (pr_calls p2) = kCallDataSize) by (rewrite (ad_len _ _ _ _ A2); exact L1).
  destruct (cd_get_ok p2 d) as (c2 & E3 & E3'); [lia|]. rewrite E3. cbn [rbind].
  assert (Hst : cd_istart c2 = t0).
  { unfold istart_at in C1. rewrite E3' in C1. unfold p1 in C1. rewrite cd_set_get in C1 by lia. rewrite Z.eqb_refl in C1. cbn in C1. congruence. }
  set (p3 := cd_set p2 d _).
  assert (Hlow : below d p p3).
  { intros j Hj. unfold p3. rewrite cd_set_get by lia. destruct (Z.eqb_spec j d); [lia|]. rewrite B2 by exact Hj.
    unfold p1. rewrite cd_set_get by lia. destruct (Z.eqb_spec j d); [lia|reflexivity]. }
  assert (Hat : znth (pr_calls p3) d = Some (mkCall (cd_istart c2) t1 (cd_cstart c2))).
  { unfold p3. rewrite cd_set_get by lia. rewrite Z.eqb_refl. reflexivity. }
  assert (L3 : zlen (pr_calls p3) = zlen (pr_calls p2)) by (unfold p3; apply cd_set_len).
  assert (A3 : added mode (all_instrs (Run t0 body t1)) p p3).
  { eapply added_profile with (q := p1); [reflexivity|lia|]. destruct A2 as [X1 X2 X3]. split; [exact X1|exact X2|congruence]. }
  destruct (Z.eqb_spec d 0) as [h|h].
  - eexists. split; [reflexivity|]. split; [destruct A3 as [X1 X2 X3]; split; assumption|]. split; [exact Hlow|].
    unfold istart_at, iend_at. cbn [pr_calls]. rewrite Hat. cbn [option_map cd_istart cd_iend run_start run_stop]. rewrite Hst.
    split; [reflexivity|]. split; [reflexivity|]. split; [contradiction|]. intros _. cbn [pr_profile pf_icalls pf_iticks].
    change (pr_profile p3) with (pr_profile p2). rewrite C2, C3. split; reflexivity.
  - exists p3. split; [reflexivity|]. split; [exact A3|]. split; [exact Hlow|].
    unfold istart_at, iend_at. rewrite Hat. cbn [option_map cd_istart cd_iend run_start run_stop]. rewrite Hst.
    split; [reflexivity|]. split; [reflexivity|]. split; [|contradiction]. intros _. change (pr_profile p3) with (pr_profile p2). rewrite C2, C3. split; reflexivity.
Qed.

(** ** Monotone clocks *)
Lemma hooks_shift d r : map hook_time (hooks_of d r) = map hook_time (hooks_of 0 r).
Proof.
  enough (X : forall r d d', map hook_time (hooks_of d r) = map hook_time (hooks_of d' r)) by apply X. clear.
  intros r. induction r as [t0 body t1 IH] using run_ind2. intros d d'. cbn [hooks_of map hook_time]. f_equal. rewrite !map_app. f_equal.
  induction IH as [|i body Hi HB IHB]; [reflexivity|]. cbn [flat_map]. rewrite !map_app. f_equal; [|exact IHB].
  destruct i as [[[o a] ns] b]. cbn [instr_nested fst snd] in Hi. cbn [map hook_time]. f_equal. rewrite !map_app. f_equal.
  induction Hi as [|n ns Hn HN IHN]; [reflexivity|]. cbn [flat_map]. rewrite !map_app. f_equal; [apply Hn|exact IHN].
Qed.
Lemma times_shift d r : times_ok r -> times_in d r.
Proof.
  unfold times_ok, times_in. intros h. rewrite <- (Forall_map hook_time (fun t => 0 <= t < kTicksNotMeasured)) in *.
  rewrite hooks_shift. exact h.
Qed.

Notation SS := (StronglySorted Z.le).
Lemma SS_app l1 l2 : SS (l1 ++ l2) -> SS l1 /\ SS l2 /\ (forall x y, In x l1 -> In y l2 -> x <= y).
Proof.
  induction l1 as [|a l1 IH]; cbn [app]; intros h.
  - split; [constructor|]. split; [exact h|]. intros ? ? [].
  - inversion h as [|? ? h1 h2]; subst. destruct (IH h1) as (I1 & I2 & I3). apply Forall_app in h2 as [F1 F2].
    split; [constructor; assumption|]. split; [exact I2|]. intros x y [<-|Hx] Hy; [rewrite Forall_forall in F2; auto|auto].
Qed.

Lemma own_ticks_nonneg r : clock_ok r -> Forall (fun i => 0 <= own_ticks i) (all_instrs r).
Proof.
  unfold clock_ok. intros h. apply Sorted_StronglySorted in h; [|intros ? ? ?; lia]. revert h.
  induction r as [t0 body t1 IH] using run_ind2. cbn [hooks_of all_instrs map hook_time].
  intros h. inversion h as [|? ? h' _]; subst. clear h. rewrite map_app in h'. apply SS_app in h' as (h & _ & _).
  rewrite Forall_flat_map. induction IH as [|i body Hi HB IHB]; [constructor|].
  cbn [flat_map] in h. rewrite map_app in h. apply SS_app in h as (h1 & h2 & _). constructor; [|apply IHB; exact h2].
  destruct i as [[[o a] ns] b]. cbn [instr_nested fst snd] in Hi. cbn [map hook_time] in h1. inversion h1 as [|? ? h3 h4]; subst.
  rewrite map_app in h3, h4. apply SS_app in h3 as (h3 & _ & h5). apply Forall_app in h4 as [h4 h6]. inversion h6 as [|? ? h7 _]; subst. cbn [hook_time] in h7.
  constructor.
  - unfold own_ticks, instr_time. cbn [instr_nested fst snd]. destruct (rev ns) as [|n rs] eqn:Er; [lia|].
    assert (Hin : In n ns) by (rewrite in_rev, Er; left; reflexivity).
    assert (Hs : In (run_start n) (map hook_time (flat_map (hooks_of (0 + 1)) ns))).
    { apply in_map_iff. exists (HPreRun 1 (run_start n)). split; [reflexivity|]. apply in_flat_map. exists n. split; [exact Hin|].
      destruct n. left. reflexivity. }
    assert (He : In (run_stop n) (map hook_time (flat_map (hooks_of (0 + 1)) ns))).
    { apply in_map_iff. exists (HPostRun 1 (run_stop n)). split; [reflexivity|]. apply in_flat_map. exists n. split; [exact Hin|].
      destruct n. right. apply in_or_app. right. left. reflexivity. }
    rewrite Forall_forall in h4. pose proof (h4 _ Hs).
    assert (X : run_stop n <= b). { apply h5; [exact He|left; reflexivity]. }
    assert (Y : run_start n <= b). { apply h5; [exact Hs|left; reflexivity]. }
    lia.
  - rewrite Forall_flat_map. clear h4 h5 h6 h7 h1. rewrite Forall_forall in *. intros n Hn. apply Hi; [exact Hn|].
    rewrite <- (hooks_shift 1). revert h3 Hn. clear. induction ns as [|m ns IH]; [intros ? []|]. intros h [<-|Hn].
    + cbn [flat_map] in h. rewrite map_app in h. apply SS_app in h. apply h.
    + cbn [flat_map] in h. rewrite map_app in h. apply SS_app in h. apply IH; [apply h|exact Hn].
Qed.
