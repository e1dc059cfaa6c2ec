(** The rules of the conformance tests: which ones are found for a state, and that they describe the EVM. *)
From Verif Require Import Base Host Uint256 SpecEvm SpecVm ArithFacts MemFacts JumpFacts GoAdapter GoStorage LfvmCode Lfvm LfvmOps SpecLfvm Ct SpecCt CtFacts CtRules SpecRules CtRuleFacts CtMemFacts.
From Verif Require Import CtSound CtSound2 CtSound3 CtSound4 CtSound5 CtSound6 CtSound7 CtSound8.
From Coq Require Import Lia ZArith List Bool.
Import ListNotations.
Open Scope Z_scope.

(** ** Conditions of rules can be evaluated *)
Definition safe_arg (e : expr) : bool := match e with EPc => true | EParam i => 0 <=? i | _ => false end.
Definition safe_expr (e : expr) : bool := match e with EOp e => safe_arg e | EParam i => 0 <=? i | _ => true end.
Definition safe_cond (c : cond) : bool :=
  match c with
  | Cmp _ e _ => safe_expr e
  | IsCode e | IsData e | IsStorageWarm e | IsStorageCold e | TransientNonZero e | TransientZero e | AccountIsEmpty e | AccountIsNotEmpty e
  | IsAddressWarm e | IsAddressCold e | InRange256 e | OutOfRange256 e | HasBlobHash e | HasNoBlobHash e => safe_arg e
  | StorageConfiguration _ k v => safe_arg k && safe_arg v
  | _ => true
  end.
Section Top.
Variable tx : tx_context.
Variable keccak hash : list Z -> Z.
Notation H := (go_host (ct_rc tx) tx).
Notation call := (answers ct_Call).
Notation msg_of b := (message_of (ToVmParameters hash b)).
Notation holds := (holds tx).
Notation rules := (getAllRules tx keccak).

Definition sane (s : state) : Prop := 0 <= ct_pc s /\ Forall (fun v => 0 <= v) (ct_stack s).
Lemma arg_total s e : sane s -> safe_arg e = true -> exists v, eval s e = Ok v /\ match v with Some v => 0 <= v | None => True end.
Proof.
  intros [hp hs] h. destruct e; try discriminate; cbn [safe_arg] in h.
  - eexists. split; [reflexivity|]. exact hp.
  - rewrite Z.leb_le in h. rewrite eval_param by exact h. eexists. split; [reflexivity|]. destruct (znth (rev (ct_stack s)) i) as [v|] eqn:e; [|exact Logic.I].
    rewrite znth_nth in e by exact h. apply nth_error_In in e. apply in_rev in e. rewrite Forall_forall in hs. apply hs, e.
Qed.
Lemma expr_total s e : sane s -> safe_expr e = true -> exists v, eval s e = Ok v.
Proof.
  intros hs h. destruct e; try (eexists; reflexivity).
  - destruct (arg_total s (EParam i) hs h) as (v & e & _). eauto.
  - cbn [safe_expr] in h. destruct (arg_total s e hs h) as (v & e' & hv). cbn [eval]. rewrite e'. cbn [rbind]. destruct v as [v|]; [|eauto].
    destruct (negb (isUint64 v) || (2 ^ 63 - 1 <? v)); [eauto|]. rewrite GetOperation_eq by exact hv. eauto.
Qed.
Lemma check_total s c : sane s -> safe_cond c = true -> exists v, check tx s c = Ok v.
Proof.
  intros hs h. destruct c; cbn [safe_cond] in h; cbn [check]; try (eexists; reflexivity);
    try (destruct (arg_total s e hs h) as (v & e' & _); rewrite e'; cbn [rbind]; destruct v; eauto; fail);
    try (destruct (arg_total s a hs h) as (v & e' & _); rewrite e'; cbn [rbind]; destruct v; eauto; fail).
  - destruct (expr_total s e hs h) as (w & e'). rewrite e'. cbn [rbind]. destruct w; eauto.
  - rewrite andb_true_iff in h. destruct (arg_total s key hs (proj1 h)) as (k & e1 & _). rewrite e1. cbn [rbind]. destruct k as [k|]; [|eauto].
    destruct (arg_total s value hs (proj2 h)) as (v & e2 & _). rewrite e2. cbn [rbind]. destruct v; eauto.
  - destruct (arg_total s key hs h) as (v & e' & _). rewrite e'. cbn [rbind]. destruct v; eauto.
  - destruct (arg_total s key hs h) as (v & e' & _). rewrite e'. cbn [rbind]. destruct v; eauto.
  - destruct (arg_total s n hs h) as (v & e' & _). rewrite e'. cbn [rbind]. destruct v; eauto.
  - destruct (arg_total s n hs h) as (v & e' & _). rewrite e'. cbn [rbind]. destruct v; eauto.
  - destruct (arg_total s i hs h) as (v & e' & _). rewrite e'. cbn [rbind]. destruct v; eauto.
  - destruct (arg_total s i hs h) as (v & e' & _). rewrite e'. cbn [rbind]. destruct v; eauto.
Qed.
Lemma check_all_total s cs : sane s -> forallb safe_cond cs = true -> exists v, check_all tx s cs = Ok v.
Proof.
  intros hs. induction cs as [|c cs ih]; cbn [forallb check_all]; intros h; [eauto|]. rewrite andb_true_iff in h. destruct (check_total s c hs (proj1 h)) as (v & e). rewrite e. cbn [rbind].
  destruct v as [[|]|]; eauto. apply ih, h.
Qed.
Definition all_safe (cs : list (list cond)) : bool := forallb (forallb safe_cond) cs.
Definition all_conditions : list (list cond) := map (@r_conditions) rules.
Lemma conditions_safe : all_safe all_conditions = true.
Proof. vm_compute. reflexivity. Qed.
Lemma rule_safe r : In r rules -> forallb safe_cond (r_conditions r) = true.
Proof. intros h. pose proof conditions_safe as X. unfold all_safe, all_conditions in X. rewrite forallb_forall in X. apply X. apply (in_map (@r_conditions)), h. Qed.

Lemma applies_total s r : sane s -> In r rules -> exists v, applies tx s r = Ok v.
Proof. intros hs hr. destruct (check_all_total s _ hs (rule_safe r hr)) as (v & e). unfold applies. rewrite e. cbn [rbind]. eauto. Qed.
Lemma applies_holds s r : applies tx s r = Ok true <-> Forall (holds s) (r_conditions r).
Proof. rewrite <- check_all_holds. unfold applies. destruct (check_all tx s (r_conditions r)) as [[[|]|]| |]; cbn [rbind]; split; congruence. Qed.
Lemma filterM_in s rs : sane s -> incl rs rules -> exists rs', filterM tx s rs = Ok rs' /\ forall r, In r rs' <-> In r rs /\ applies tx s r = Ok true.
Proof.
  intros hs. induction rs as [|r rs ih]; intros hi; [exists []; split; [reflexivity|]; cbn; tauto|].
  destruct ih as (rs' & e & h); [intros x hx; apply hi; right; exact hx|]. destruct (applies_total s r hs (hi r (or_introl eq_refl))) as (v & ev).
  cbn [filterM]. rewrite ev. cbn [rbind]. rewrite e. cbn [rbind]. eexists. split; [reflexivity|]. intros x. destruct v.
  - cbn [In]. rewrite h. split; [intros [-> |k]; tauto|tauto].
  - rewrite h. cbn [In]. split; [tauto|]. intros [[-> |k] k2]; [congruence|tauto].
Qed.

(** ** Rules are looked up by the operation at the position of the state *)
(** every rule that asks for an operation asks for a running state of a known revision *)
Definition lookup_ok (cs : list cond) : bool :=
  match ruleOp cs with
  | Some op => existsb (fun c => match c with Cmp Eq EStatus 0 => true | _ => false end) cs && existsb (fun c => match c with RevisionBounds _ hi => hi <=? 5 | _ => false end) cs
  | None => existsb (fun c => match c with IsData EPc => true | RevisionBounds 99 99 => true | Cmp Eq EStatus v => negb (v =? 0) | _ => false end) cs
  end.
Lemma lookups_ok : forallb lookup_ok all_conditions = true.
Proof. vm_compute. reflexivity. Qed.
Lemma instruction_keys : forallb (fun cs => match ruleOp cs with Some _ => true | None => false end) (map (@r_conditions) (instructionRules tx keccak)) = true.
Proof. vm_compute. reflexivity. Qed.
Lemma ruleOp_in cs op : ruleOp cs = Some op -> In (OpIs op) cs.
Proof.
  induction cs as [|c cs ih]; cbn [ruleOp]; [discriminate|]. intros h. destruct c as [c e v| | | | | | | | | | | | | | | | | |]; try (right; apply ih; exact h).
  destruct c; try (right; apply ih; exact h). destruct e; try (right; apply ih; exact h). destruct e; try (right; apply ih; exact h). injection h as <-. left. reflexivity.
Qed.
Lemma existsb_holds f s cs : existsb f cs = true -> Forall (holds s) cs -> exists c, f c = true /\ holds s c.
Proof. rewrite existsb_exists, Forall_forall. intros (c & h1 & h2) h. eauto. Qed.
Lemma lookup s : sane s -> ct_pc s < 65536 -> exists rs, GetRulesFor tx keccak s = Ok rs /\ forall r, In r rs <-> In r rules /\ applies tx s r = Ok true.
Proof.
  intros hs hp. unfold GetRulesFor. rewrite GetOperation_eq by apply hs. cbn [rbind].
  match goal with |- context [filterM tx s (filter ?f _)] => set (f0 := f) end.
  destruct (filterM_in s (filter f0 rules) hs) as (rs & e & h); [intros x hx; apply filter_In in hx; apply hx|]. exists rs. split; [exact e|]. intros r. rewrite h, filter_In. split; [tauto|]. intros [h1 h2]. split; [|exact h2]. split; [exact h1|].
  subst f0. cbv beta. pose proof lookups_ok as X. unfold all_conditions in X. rewrite forallb_forall in X. specialize (X _ (in_map (@r_conditions) _ _ h1)). unfold lookup_ok in X. rewrite applies_holds in h2.
  assert (hpc : 0 <= ct_pc s < 65536) by (destruct hs; lia).
  destruct (ruleOp (r_conditions r)) as [op|] eqn:eo.
  - apply ruleOp_in in eo. assert (ho : holds s (OpIs op)) by (rewrite Forall_forall in h2; apply h2, eo). apply holds_op in ho; [|exact hpc]. destruct ho as [hc ho]. rewrite hc.
    rewrite andb_true_iff in X. destruct X as [x1 x2]. destruct (existsb_holds _ s _ x1 h2) as (c1 & f1 & k1). destruct (existsb_holds _ s _ x2 h2) as (c2 & f2 & k2).
    destruct c2 as [| lo hi| | | | | | | | | | | | | | | | |]; try discriminate. apply holds_rev in k2. rewrite Z.leb_le in f2.
    destruct c1 as [cc ee vv| | | | | | | | | | | | | | | | | |]; try discriminate. destruct cc; try discriminate. destruct ee; try discriminate. destruct vv; try discriminate. apply (holds_running tx s) in k1.
    rewrite k1. assert (e9 : (ct_revision s =? 99) = false) by lia. rewrite e9. cbn. apply Z.eqb_eq. symmetry. exact ho.
  - destruct (existsb_holds _ s _ X h2) as (c & f & k). destruct c as [cc ee vv|lo hi| |ee| | | | | | | | | | | | | | |]; try discriminate.
    + destruct cc; try discriminate. destruct ee; try discriminate. assert (kn : ct_stat s <> CtRunning). { intros ek. unfold CtRuleFacts.holds in k. cbn [check eval rbind compare] in k. rewrite ek in k. cbn [status_num] in k. apply ok_true in k. rewrite Z.eqb_eq in k. subst vv. discriminate. }
      destruct (IsCodeAt (ct_code s) (ct_pc s)); [|reflexivity]. destruct (ct_stat s); try contradiction; rewrite orb_true_r; reflexivity.
    + assert (e99 : lo = 99 /\ hi = 99). { destruct lo as [|p|]; try discriminate. repeat (destruct p as [p|p|]; try discriminate). destruct hi as [|p|]; try discriminate. repeat (destruct p as [p|p|]; try discriminate). tauto. }
      destruct e99 as [-> ->]. apply holds_rev in k. assert (e9 : (ct_revision s =? 99) = true) by lia. rewrite e9. destruct (IsCodeAt (ct_code s) (ct_pc s)); reflexivity.
    + destruct ee; try discriminate. unfold CtRuleFacts.holds in k. cbn [check eval rbind] in k. apply ok_true in k. destruct (IsCodeAt (ct_code s) (ct_pc s)); [|reflexivity].
      destruct (negb (isUint64 (ct_pc s)) || (2 ^ 63 - 1 <? ct_pc s)); discriminate.
Qed.

(** ** Rules for instructions *)
Hypothesis Htx : tx_ok tx.
Lemma instruction_ok : Forall (rule_ok tx keccak hash) (instructionRules tx keccak).
Proof.
  unfold instructionRules. each;
    solve [ apply invalid_ok | apply stop_ok | apply arithmetic_ok | apply sha3_ok | apply balance_ok; assumption | apply memory_ok | apply sload_ok | apply sstore_ok | apply jump_ok | apply machine_ok | apply transient_ok
          | apply stack_ok | apply mcopy_ok | apply logs_ok | apply environment_ok; assumption | apply extcodesize_ok; assumption | apply extcodecopy_ok | apply extcodehash_ok | apply codecopy_ok | apply calldataload_ok
          | apply calldatacopy_ok | apply returndatacopy_ok | apply return_ok | apply call_ok | apply selfdestruct_ok | apply create_ok ].
Qed.
Lemma sane_of s : test_state s -> sane s.
Proof. intros h. split; [apply (tst_pc s h)|]. eapply Forall_impl; [|apply (ctk_words s (tst_ok s h))]. cbv beta. unfold is_word. intros v hv. lia. Qed.
Lemma idle_not s r : test_state s -> 0 <= ct_revision s <= 5 -> IsCodeAt (ct_code s) (ct_pc s) = true -> In r idleRules -> Forall (holds s) (r_conditions r) -> False.
Proof.
  intros ht hr hc hi. pose proof (ctk_running s (tst_ok s ht)) as hrun. pose proof (tst_pc s ht) as hpc.
  destruct hi as [<- |[<- |[<- |[<- |[<- |[]]]]]]; cbn [r_conditions]; rewrite !Forall_cons_iff; unfold AnyKnownRevision, IsRevision; rewrite ?holds_rev; unfold CtRuleFacts.holds; cbn [check eval rbind compare]; rewrite ?ok_true, ?hrun; cbn [status_num]; try (intros (_ & h & _); discriminate).
  - rewrite hc. destruct (negb (isUint64 (ct_pc s)) || (2 ^ 63 - 1 <? ct_pc s)); intros [h _]; discriminate.
  - lia.
Qed.
Lemma known_rev (s : state) rv : In (ct_revision s, rv) revisions -> 0 <= ct_revision s <= 5.
Proof. unfold revisions. cbn [In]. intros h. repeat (destruct h as [h|h]; [injection h as <- _; lia|]). contradiction. Qed.
Lemma rules_sound s rv : test_state s -> In (ct_revision s, rv) revisions -> ~ covered (ct_code s) (ct_pc s) ->
  exists rs, GetRulesFor tx keccak s = Ok rs /\ forall r, In r rs -> exists s', r_effect r s = Ok s' /\
    same_state s' (ct_after s (run_for H call keccak (msg_of s) rv (ct_code s) (is_dest (ct_code s)) 1 (frame_of s))).
Proof.
  intros ht hr hc. pose proof (tst_pc s ht) as hpc. apply code_iff in hc; [|lia]. destruct (lookup s (sane_of s ht) ltac:(lia)) as (rs & e & h). exists rs. split; [exact e|]. intros r hr'. apply h in hr'. destruct hr' as [hin ha]. apply applies_holds in ha.
  unfold getAllRules in hin. apply in_app_or in hin. destruct hin as [hi|hi]; [elim (idle_not s r ht (known_rev s rv hr) hc hi ha)|].
  pose proof instruction_ok as X. rewrite Forall_forall in X. rewrite run_one. exact (X r hi s rv ht hr ha).
Qed.

(** ** Rules of other states *)
Lemma idle_only s r : In r rules -> Forall (holds s) (r_conditions r) -> 0 <= ct_pc s < 65536 -> ct_stat s <> CtRunning \/ IsCodeAt (ct_code s) (ct_pc s) = false \/ 5 < ct_revision s -> In r idleRules.
Proof.
  intros hin ha hp hx. unfold getAllRules in hin. apply in_app_or in hin. destruct hin as [h|h]; [exact h|]. exfalso.
  pose proof lookups_ok as X. unfold all_conditions in X. rewrite forallb_forall in X. specialize (X _ (in_map (@r_conditions) _ _ (in_or_app _ _ _ (or_intror h)))). unfold lookup_ok in X.
  pose proof instruction_keys as K. rewrite forallb_forall in K. specialize (K _ (in_map (@r_conditions) _ _ h)). destruct (ruleOp (r_conditions r)) as [op|] eqn:eo; [|discriminate].
  apply ruleOp_in in eo. assert (ho : holds s (OpIs op)) by (rewrite Forall_forall in ha; apply ha, eo). apply holds_op in ho; [|exact hp].
  rewrite andb_true_iff in X. destruct X as [x1 x2]. destruct (existsb_holds _ s _ x1 ha) as (c1 & f1 & k1). destruct (existsb_holds _ s _ x2 ha) as (c2 & f2 & k2).
  destruct c2 as [| lo hi| | | | | | | | | | | | | | | | |]; try discriminate. apply holds_rev in k2. rewrite Z.leb_le in f2.
  destruct c1 as [cc ee vv| | | | | | | | | | | | | | | | | |]; try discriminate. destruct cc; try discriminate. destruct ee; try discriminate. destruct vv; try discriminate. apply (holds_running tx s) in k1.
  destruct hx as [hx|[hx|hx]]; [congruence|destruct ho; congruence|lia].
Qed.
Lemma holds_data s : 0 <= ct_pc s < 65536 -> holds s (IsData EPc) <-> IsCodeAt (ct_code s) (ct_pc s) = false.
Proof.
  intros hp. unfold CtRuleFacts.holds. cbn [check eval rbind]. rewrite ok_true. unfold isUint64. assert (e : negb (ct_pc s <? 2 ^ 64) || (2 ^ 63 - 1 <? ct_pc s) = false) by lia. rewrite e. rewrite negb_true_iff. tauto.
Qed.
Lemma rules_idle s : sane s -> ct_pc s < 65536 -> 0 <= ct_revision s <= 5 -> ct_stat s <> CtRunning \/ covered (ct_code s) (ct_pc s) ->
  exists rs, GetRulesFor tx keccak s = Ok rs /\ rs <> [] /\ forall r, In r rs -> r_effect r s = Ok s.
Proof.
  intros hs hp hr hx. assert (hpc : 0 <= ct_pc s < 65536) by (destruct hs; lia). destruct (lookup s hs hp) as (rs & e & h). exists rs. split; [exact e|]. split.
  - assert (X : exists r, In r rules /\ Forall (holds s) (r_conditions r)).
    { assert (Y : forall r, In r idleRules -> Forall (holds s) (r_conditions r) -> exists r, In r rules /\ Forall (holds s) (r_conditions r)) by (intros r h1 h2; exists r; split; [apply in_or_app; left; exact h1|exact h2]).
      destruct hx as [hx|hx].
      - destruct (ct_stat s) eqn:es; [contradiction| | |];
          [eapply Y; [left; reflexivity|]|eapply Y; [right; left; reflexivity|]|eapply Y; [right; right; left; reflexivity|]]; cbn [r_conditions]; (constructor; [apply holds_rev; lia|]; constructor; [|constructor]; unfold CtRuleFacts.holds; cbn [check eval rbind compare]; rewrite es; reflexivity).
      - eapply Y; [right; right; right; left; reflexivity|]. cbn [r_conditions]. constructor; [|constructor]. apply holds_data; [exact hpc|]. apply not_true_iff_false. rewrite code_iff by lia. tauto. }
    destruct X as (r & h1 & h2). intros ->. apply (in_nil (a := r)). apply h. split; [exact h1|]. apply applies_holds, h2.
  - intros r hr'. apply h in hr'. destruct hr' as [hin ha]. apply applies_holds in ha.
    assert (hi : In r idleRules). { apply (idle_only s r hin ha hpc). destruct hx as [hx|hx]; [left; exact hx|right; left; apply not_true_iff_false; rewrite code_iff by lia; tauto]. }
    destruct hi as [<- |[<- |[<- |[<- |[<- |[]]]]]]; try reflexivity. cbn [r_conditions] in ha. rewrite Forall_cons_iff in ha. destruct ha as [ha _]. apply holds_rev in ha. lia.
Qed.
Lemma rules_unknown s : sane s -> ct_pc s < 65536 -> ct_revision s = 99 -> ~ covered (ct_code s) (ct_pc s) ->
  exists rs, GetRulesFor tx keccak s = Ok rs /\ rs <> [] /\ forall r, In r rs -> exists s', r_effect r s = Ok s' /\ ct_stat s' = CtFailed.
Proof.
  intros hs hp hr hx. assert (hpc : 0 <= ct_pc s < 65536) by (destruct hs; lia). destruct (lookup s hs hp) as (rs & e & h). exists rs. split; [exact e|]. apply code_iff in hx; [|lia]. split.
  - intros ->. apply (in_nil (a := mkRule [IsRevision 99] FailEffect)). apply h. split; [apply in_or_app; left; cbn; tauto|]. apply applies_holds. constructor; [|constructor]. apply holds_rev. lia.
  - intros r hr'. apply h in hr'. destruct hr' as [hin ha]. apply applies_holds in ha.
    assert (hi : In r idleRules) by (apply (idle_only s r hin ha hpc); lia).
    destruct hi as [<- |[<- |[<- |[<- |[<- |[]]]]]]; cbn [r_conditions] in ha; rewrite Forall_cons_iff in ha; destruct ha as [ha _]; try (unfold AnyKnownRevision in ha; apply holds_rev in ha; lia).
    + apply holds_data in ha; [congruence|exact hpc].
    + eexists. split; reflexivity.
Qed.
Lemma rules_agree s rv r1 r2 s1 s2 rs : test_state s -> In (ct_revision s, rv) revisions -> ~ covered (ct_code s) (ct_pc s) -> GetRulesFor tx keccak s = Ok rs ->
  In r1 rs -> In r2 rs -> r_effect r1 s = Ok s1 -> r_effect r2 s = Ok s2 -> same_state s1 s2.
Proof.
  intros ht hr hc e h1 h2 e1 e2. destruct (rules_sound s rv ht hr hc) as (rs' & e' & h). rewrite e in e'. injection e' as <-.
  destruct (h r1 h1) as (s1' & k1 & q1). destruct (h r2 h2) as (s2' & k2 & q2). rewrite e1 in k1. injection k1 as <-. rewrite e2 in k2. injection k2 as <-. eapply same_trans; [exact q1|]. apply same_sym. exact q2.
Qed.
End Top.
