(** Facts for C95. *)
From Verif Require Import Base Host GoStorage SpecEvm Lfvm CtRules SpecRules JumpFacts CtRuleFacts CtSolve SpecSolve CtGen SpecGen CtCodeGen SpecCode CtCodeGenFacts CtContext SpecContext CtAccounts SpecAccounts CtState SpecState CtStateFacts CtStateFacts2 CtStateFacts3 CtStateFacts4 CtRestrict SpecRestrict.
From Coq Require Import Lia ZArith List Bool Permutation.
Import ListNotations.
Open Scope Z_scope.

(** ** The requests made *)
Lemma generator_app qs rs : state_generator (qs ++ rs) = fold_left state_call rs (state_generator qs).
Proof. unfold state_generator. apply fold_left_app. Qed.
Lemma bind_bound e g : position e \/ e = EBalanceOfSelf -> BindTo e g = state_call g (bound e).
Proof. intros [[->|h]| ->]; [reflexivity| |reflexivity]. destruct e; try destruct h; reflexivity. Qed.
Lemma pos_param e : parameter e -> position e.
Proof. right. exact H. Qed.

Lemma restrict_expr k c e v w g g' : constant_ok c e v -> RestrictExpr k e w g = Some g' -> g' = fold_left state_call (asked_expr k e w) g.
Proof.
  intros hok h. destruct e; cbn [RestrictExpr asked_expr] in *.
  - destruct k; inversion h; reflexivity.
  - destruct k; inversion h; reflexivity.
  - destruct k; inversion h; reflexivity.
  - destruct k; inversion h; reflexivity.
  - destruct k; try discriminate. destruct (_ && _); inversion h; reflexivity.
  - destruct k; inversion h; reflexivity.
  - destruct k; try discriminate. inversion h. cbn [fold_left]. destruct hok as [hp _]. rewrite bind_bound by (left; exact hp). reflexivity.
  - destruct k; inversion h; reflexivity.
Qed.
Lemma restrict_asked c g g' : cond_ok c -> Restrict c g = Some g' -> g' = fold_left state_call (asked c) g.
Proof.
  intros hok h. destruct c; cbn [Restrict asked cond_ok] in *; try (injection h as <-; cbn [fold_left]; rewrite ?bind_bound by (left; first [exact hok|apply pos_param; exact hok]); reflexivity).
  - destruct c; try (eapply restrict_expr; eassumption).
    + destruct (Predecessor e v) as [w|]; [|discriminate]. eapply restrict_expr; eassumption.
    + destruct (Successor e v) as [w|]; [|discriminate]. eapply restrict_expr; eassumption.
  - destruct hok as [h1 h2]. injection h as <-. cbn [fold_left]. rewrite !bind_bound by (left; apply pos_param; assumption). reflexivity.
Qed.
Lemma restrict_all_asked : forall cs g g', Forall cond_ok cs -> RestrictAll cs g = Some g' -> g' = fold_left state_call (asked_all cs) g.
Proof.
  induction cs as [|c cs ih]; cbn [RestrictAll]; intros g g' hok h; [inversion h; reflexivity|]. inversion hok; subst.
  destruct (Restrict c g) as [g1|] eqn:e; [|discriminate]. apply restrict_asked in e; [|assumption]. subst g1. unfold asked_all. cbn [flat_map]. rewrite fold_left_app. apply ih; assumption.
Qed.

(** ** The arguments of the requests *)
Lemma s64_id v : - 2 ^ 63 <= v < 2 ^ 63 -> s64 v = v.
Proof.
  intros h. unfold s64. cbv zeta. destruct (Z.ltb_spec (v mod 2 ^ 64) (2 ^ 63)) as [h1|h1].
  - destruct (Z_lt_ge_dec v 0); [|apply Z.mod_small; lia]. rewrite <- (Z.mod_unique v (2 ^ 64) (-1) (v + 2 ^ 64)) in h1; lia.
  - destruct (Z_lt_ge_dec v 0); [|rewrite Z.mod_small in h1; lia]. rewrite <- (Z.mod_unique v (2 ^ 64) (-1) (v + 2 ^ 64)); lia.
Qed.
Lemma word_word v : is_word (word v).
Proof. apply Z.mod_pos_bound. lia. Qed.
Lemma bound_ok e : position e -> state_request_ok (bound e).
Proof. intros [->|h]; [exact Logic.I|]. destruct e; try destruct h. cbn [bound state_request_ok stack_request_ok]. lia. Qed.
Lemma gas_ok c : bounds c -> (forall v, c = SpecSolve.AtLeast v \/ c = SpecSolve.AtMost v \/ c = Exactly v -> - 2 ^ 63 <= v < 2 ^ 63) -> state_request_ok (GasIs c).
Proof. intros hb h. split; [|exact hb]. assert (hin : forall v, - 2 ^ 63 <= v < 2 ^ 63 -> in_type tInt v) by (intros v hv; unfold in_type, it_min, it_max; cbn; lia). destruct c; [| | |destruct hb]; apply hin, h; auto. Qed.
Lemma some_ok k c e v w g g' : constant_ok c e v -> RestrictExpr k e w g = Some g' ->
  (w = v \/ (k = Less /\ c = Lt /\ Predecessor e v = Some w) \/ (k = Greater /\ c = Gt /\ Successor e v = Some w) \/ (k = Equal /\ w = SomethingNotEqual e v)) -> Forall state_request_ok (asked_expr k e w).
Proof.
  intros hok h hw. destruct e; cbn [asked_expr constant_ok] in *.
  - repeat constructor.
  - repeat constructor.
  - assert (hr : - 2 ^ 63 + 1 <= w <= 2 ^ 63 - 2).
    { destruct hw as [->|[(_ & _ & h1)|[(_ & _ & h1)|(_ & h1)]]]; cbn [Predecessor Successor SomethingNotEqual] in *; [lia| | |].
      - rewrite s64_id in h1 by lia. assert (v - 1 = w) by congruence. lia.
      - rewrite s64_id in h1 by lia. assert (v + 1 = w) by congruence. lia.
      - rewrite s64_id in h1 by lia. lia. }
    constructor; [|constructor]. apply gas_ok; destruct k; cbn [bounds]; try exact Logic.I; intros u [hu|[hu|hu]]; inversion hu; rewrite ?s64_id by lia; lia.
  - assert (hr : - 2 ^ 63 + 1 <= w <= 2 ^ 63 - 2).
    { destruct hw as [->|[(_ & _ & h1)|[(_ & _ & h1)|(_ & h1)]]]; cbn [Predecessor Successor SomethingNotEqual] in *; [lia| | |].
      - rewrite s64_id in h1 by lia. assert (v - 1 = w) by congruence. lia.
      - rewrite s64_id in h1 by lia. assert (v + 1 = w) by congruence. lia.
      - rewrite s64_id in h1 by lia. pose proof (Z.rem_bound_abs (v + 1) 1024 ltac:(lia)). subst w. lia. }
    constructor; [|constructor]. destruct k; cbn [state_request_ok stack_request_ok]; rewrite ?s64_id by lia; lia.
  - cbn [RestrictExpr] in h. destruct k; try discriminate. destruct (isUint64 w && (w <=? 65535)) eqn:e; [|discriminate]. apply andb_true_iff in e. destruct e as [_ e]. apply Z.leb_le in e.
    constructor; [|constructor]. cbn [state_request_ok]. enough (0 <= w) by lia. destruct hw as [->|[(h0 & _)|[(h0 & _)|(_ & ->)]]]; [unfold is_word in hok; lia|discriminate|discriminate|]. cbn [SomethingNotEqual]. apply word_word.
  - cbn [RestrictExpr] in h. destruct k; try discriminate. destruct hok as [hp _]. cbn [parameter] in hp. constructor; [|constructor]. cbn [state_request_ok stack_request_ok]. lia.
  - destruct hok as [hp hv]. constructor; [apply bound_ok; exact hp|]. constructor; [|constructor]. cbn [state_request_ok code_request_ok]. destruct k; try discriminate.
    destruct hw as [->|[(h0 & _)|[(h0 & _)|(_ & ->)]]]; [lia|discriminate|discriminate|]. cbn [SomethingNotEqual]. pose proof (Z.mod_pos_bound (v + 1) (2 ^ 8) ltac:(lia)). lia.
  - destruct hok as [hv _]. assert (is_word w).
    { destruct hw as [->|[(_ & _ & h1)|[(_ & _ & h1)|(_ & ->)]]]; [exact hv| | |]; cbn [Predecessor Successor SomethingNotEqual] in *; [| |apply word_word].
      - assert (e : w = word (v - 1)) by congruence. rewrite e. apply word_word.
      - assert (e : w = word (v + 1)) by congruence. rewrite e. apply word_word. }
    constructor; [exact Logic.I|]. destruct k; repeat constructor; cbn [state_request_ok account_request_ok]; try assumption; try apply word_word; try (apply H).
Qed.
Lemma asked_ok c g g' : cond_ok c -> Restrict c g = Some g' -> Forall state_request_ok (asked c).
Proof.
  intros hok h. destruct c; cbn [Restrict asked cond_ok] in *.
  - destruct c.
    + eapply some_ok; [exact hok|exact h|left; reflexivity].
    + eapply some_ok; [exact hok|exact h|right; right; right; split; reflexivity].
    + destruct (Predecessor e v) as [w|] eqn:ep; [|discriminate]. cbn [or_zero]. eapply some_ok; [exact hok|exact h|right; left; auto].
    + eapply some_ok; [exact hok|exact h|left; reflexivity].
    + destruct (Successor e v) as [w|] eqn:ep; [|discriminate]. cbn [or_zero]. eapply some_ok; [exact hok|exact h|right; right; left; auto].
    + eapply some_ok; [exact hok|exact h|left; reflexivity].
  - constructor; [exact hok|constructor].
  - repeat constructor. apply bound_ok, hok.
  - repeat constructor. apply bound_ok, hok.
  - repeat constructor. apply bound_ok, pos_param, hok.
  - repeat constructor. apply bound_ok, pos_param, hok.
  - destruct hok. repeat constructor; apply bound_ok, pos_param; assumption.
  - repeat constructor. apply bound_ok, pos_param, hok.
  - repeat constructor. apply bound_ok, pos_param, hok.
  - repeat constructor. apply bound_ok, pos_param, hok.
  - repeat constructor. apply bound_ok, pos_param, hok.
  - repeat constructor. apply bound_ok, pos_param, hok.
  - repeat constructor. apply bound_ok, pos_param, hok.
  - repeat constructor.
  - repeat constructor.
  - repeat constructor. apply bound_ok, pos_param, hok.
  - repeat constructor. apply bound_ok, pos_param, hok.
  - repeat constructor. apply bound_ok, pos_param, hok.
  - repeat constructor. apply bound_ok, pos_param, hok.
Qed.
Lemma asked_all_ok : forall cs g g', Forall cond_ok cs -> RestrictAll cs g = Some g' -> Forall state_request_ok (asked_all cs).
Proof.
  induction cs as [|c cs ih]; cbn [RestrictAll]; intros g g' hok h; [constructor|]. inversion hok; subst. destruct (Restrict c g) as [g1|] eqn:e; [|discriminate].
  unfold asked_all. cbn [flat_map]. apply Forall_app. split; [eapply asked_ok; eassumption|eapply ih; eassumption].
Qed.

(** ** Code *)
Lemma op_at code p o : operation_at code p o -> zlen code <= 24576 -> 0 <= p < zlen code /\ GetOperation code p = Ok (Some o) /\ IsCodeAt code p = true.
Proof.
  intros [h1 h2] hl. pose proof (znth_in _ _ _ h2) as hp. split; [exact hp|]. pose proof (isCode_at code p ltac:(lia)) as h. unfold GetOperation, IsCodeAt.
  destruct (znth (isCode_of code) p) as [[|]|]; [rewrite h2; split; reflexivity| |lia]. exfalso. exact (covered_not_start code p h h1).
Qed.
Lemma data_code code p : push_data code p -> p < zlen code -> 0 <= p /\ IsCodeAt code p = false.
Proof.
  intros h hl. assert (0 <= p) as h0. { destruct h as (r & h1 & h2 & h3). pose proof (start_nonneg code r h1). lia. } split; [exact h0|].
  pose proof (isCode_at code p h0) as k. unfold IsCodeAt. destruct (znth (isCode_of code) p) as [[|]|]; [|reflexivity|lia]. exfalso. exact (covered_not_start code p h (proj1 k)).
Qed.

(** ** What fulfils the requests passes the checks *)
Section Checks.
Variables (b : Assignment) (s : State).
Hypothesis hv : state_valid s.

Lemma bound_eval e : position e -> state_fulfils b s (bound e) -> exists v, b (variable e) = Some v /\ Eval s e = Some (match e with EPc => v mod 2 ^ 16 | _ => v end).
Proof.
  intros [->|h] hf.
  - cbn [bound state_fulfils] in hf. destruct hf as (v & h1 & h2). exists v. split; [exact h1|]. cbn [Eval]. f_equal. exact h2.
  - destruct e; try destruct h. cbn [bound state_fulfils stack_fulfils variable] in *. destruct hf as (v & h1 & h2). exists v. split; [exact h1|]. cbn [Eval].
    pose proof (znth_in _ _ _ h2). destruct (Z.leb_spec (zlen (s_stack s)) i); [lia|exact h2].
Qed.
Lemma param_eval e : parameter e -> state_fulfils b s (bound e) -> exists v, b (variable e) = Some v /\ Eval s e = Some v.
Proof. intros h hf. destruct (bound_eval e (pos_param _ h) hf) as (v & h1 & h2). exists v. split; [exact h1|]. destruct e; try destruct h. exact h2. Qed.
Lemma code_eval e v o : position e -> state_fulfils b s (bound e) -> b (variable e) = Some v -> operation_at (s_code s) v o \/ push_data (s_code s) v /\ v < zlen (s_code s) ->
  Eval s e = Some v /\ (negb (isUint64 v) || (2 ^ 63 - 1 <? v)) = false.
Proof.
  intros hp hf hb hc. destruct (bound_eval e hp hf) as (w & h1 & h2). assert (w = v) by congruence. subst w.
  assert (hl : zlen (s_code s) <= 24576) by apply hv.
  assert (hr : 0 <= v < 24576). { destruct hc as [hc|[hc1 hc2]]; [destruct (op_at _ _ _ hc hl); lia|destruct (data_code _ _ hc1 hc2); lia]. }
  split.
  - rewrite h2. destruct e; try reflexivity. rewrite Z.mod_small by lia. reflexivity.
  - unfold isUint64. destruct (Z.ltb_spec v (2 ^ 64)); [|lia]. destruct (Z.ltb_spec (2 ^ 63 - 1) v); [lia|reflexivity].
Qed.

(* the two kinds of comparisons of numbers *)
Lemma compare_expr k c e v w g g' :
  constant_ok c e v -> RestrictExpr k e w g = Some g' ->
  match c with Eq => k = Equal /\ w = v | Ne => k = Equal /\ w = SomethingNotEqual e v | Lt => k = Less /\ Predecessor e v = Some w | Le => k = LessEqual /\ w = v
             | Gt => k = Greater /\ Successor e v = Some w | Ge => k = GreaterEqual /\ w = v end ->
  Forall (state_fulfils b s) (asked_expr k e w) -> Check s (Cmp c e v) = Some true.
Proof.
  intros hok h hc hf. cbn [Check].
  assert (num : forall x, Eval s e = Some x ->
    match c with Eq => x = v | Ne => x <> v | Lt => x < v | Le => x <= v | Gt => v < x | Ge => v <= x end -> match Eval s e with None => None | Some x => Some (compare c x v) end = Some true).
  { intros x -> hx. f_equal. destruct c; cbn [compare].
    - apply Z.eqb_eq, hx.
    - apply negb_true_iff, Z.eqb_neq, hx.
    - apply Z.ltb_lt, hx.
    - destruct (Z.ltb_spec x v); [reflexivity|]. cbn [orb]. apply Z.eqb_eq. lia.
    - destruct (Z.ltb_spec x v); [lia|]. destruct (Z.eqb_spec x v); [lia|reflexivity].
    - destruct (Z.ltb_spec x v); [lia|reflexivity]. }
  assert (wne : is_word v -> word (v + 1) <> v).
  { unfold is_word, word. intros hw. destruct (Z.eq_dec v (2 ^ 256 - 1)) as [->|]; [vm_compute; discriminate|]. rewrite Z.mod_small by lia. lia. }
  destruct e; cbn [asked_expr constant_ok] in *.
  - apply Forall_inv in hf. cbn [state_fulfils] in hf. apply (num _ eq_refl). destruct c; destruct hc as [-> hc]; try discriminate h; [congruence|].
    rewrite hf, hc. cbn [SomethingNotEqual]. destruct (Z.eqb_spec v 0); lia.
  - apply Forall_inv in hf. cbn [state_fulfils] in hf. apply (num _ eq_refl). rewrite hf. destruct c; destruct hc as [-> hc]; try discriminate h; rewrite hc; destruct hok as [->| ->]; cbn; lia.
  - apply Forall_inv in hf. cbn [state_fulfils] in hf. apply (num _ eq_refl).
    destruct c; destruct hc as [-> hc]; cbn [obeys SomethingNotEqual Predecessor Successor] in *; try (subst w; rewrite ?s64_id in hf by lia; lia).
    + rewrite s64_id in hc by lia. assert (w = v - 1) by congruence. subst w. rewrite s64_id in hf by lia. lia.
    + rewrite s64_id in hc by lia. assert (w = v + 1) by congruence. subst w. rewrite s64_id in hf by lia. lia.
  - apply Forall_inv in hf. cbn [state_fulfils] in hf. apply (num _ eq_refl).
    destruct c; destruct hc as [-> hc]; cbn [stack_fulfils SomethingNotEqual Predecessor Successor] in *; try (subst w; lia).
    + subst w. rewrite s64_id in hf by lia. pose proof (Z.rem_bound_abs (v + 1) 1024 ltac:(lia)) as hb. intros e. rewrite e in hf. unfold zlen in e. 
      pose proof (Z.quot_rem (v + 1) 1024 ltac:(lia)) as hq. assert (0 <= v) by lia. pose proof (Z.rem_nonneg (v + 1) 1024 ltac:(lia) ltac:(lia)). rewrite <- hf in hq. lia.
    + rewrite s64_id in hc by lia. assert (w = v - 1) by congruence. subst w. rewrite s64_id in hf by lia. lia.
    + rewrite s64_id in hc by lia. assert (w = v + 1) by congruence. subst w. rewrite s64_id in hf by lia. lia.
  - apply Forall_inv in hf. cbn [state_fulfils] in hf. apply (num _ eq_refl). destruct c; destruct hc as [-> hc]; try discriminate h; [congruence|]. rewrite hf, hc. cbn [SomethingNotEqual]. apply wne, hok.
  - apply Forall_inv in hf. cbn [state_fulfils stack_fulfils] in hf. pose proof (znth_in _ _ _ hf).
    assert (hx : Eval s (EParam i) = Some w) by (cbn [Eval]; destruct (Z.leb_spec (zlen (s_stack s)) i); [lia|exact hf]).
    apply (num _ hx). destruct c; destruct hc as [-> hc]; try discriminate h; [exact hc|]. rewrite hc. cbn [SomethingNotEqual]. apply wne, hok.
  - destruct hok as [hp hw]. rewrite !Forall_cons_iff in hf. destruct hf as (h1 & h2 & _). cbn [state_fulfils code_fulfils] in h2. destruct h2 as (p & hb & ho).
    destruct (code_eval e p w hp h1 hb (or_introl ho)) as [e1 e2]. assert (hl : zlen (s_code s) <= 24576) by apply hv. destruct (op_at _ _ _ ho hl) as (_ & e3 & _).
    assert (hx : Eval s (EOp e) = Some w) by (cbn [Eval]; rewrite e1, e2, e3; reflexivity).
    apply (num _ hx). destruct c; destruct hc as [-> hc]; try discriminate h; [exact hc|]. rewrite hc. cbn [SomethingNotEqual].
    destruct (Z.eq_dec v 255) as [->|]; [vm_compute; discriminate|]. rewrite Z.mod_small by lia. lia.
  - destruct hok as (hw & hlt & hgt). apply Forall_cons_iff in hf. destruct hf as [h1 hf]. cbn [state_fulfils] in h1.
    assert (hn : forall A, names b 1 A -> A = s_self s).
    { intros A (u & hu & hA). assert (u = s_self s) by congruence. subst u. rewrite Z.mod_small in hA; [exact hA|apply hv]. }
    apply (num _ eq_refl). unfold is_word in hw.
    destruct c; destruct hc as [-> hc]; cbn [map] in hf; rewrite ?Forall_cons_iff in hf; cbn [state_fulfils account_fulfils variable_of Predecessor Successor SomethingNotEqual] in hf, hc.
    + destruct hf as ((A & n1 & k1) & (A' & n2 & k2) & _). apply hn in n1, n2. subst. lia.
    + destruct hf as ((A & n1 & k1) & (A' & n2 & k2) & _). apply hn in n1, n2. subst. specialize (wne hw). lia.
    + destruct hf as ((A & n1 & k1) & _). apply hn in n1. subst A. specialize (hlt eq_refl). assert (w = v - 1) by (injection hc as <-; apply Z.mod_small; lia). subst w.
      unfold word in k1. rewrite Z.mod_small in k1 by lia. lia.
    + destruct hf as ((A & n1 & k1) & _). apply hn in n1. subst. lia.
    + destruct hf as ((A & n1 & k1) & _). apply hn in n1. subst A. specialize (hgt eq_refl). assert (w = v + 1) by (injection hc as <-; apply Z.mod_small; lia). subst w.
      unfold word in k1. rewrite Z.mod_small in k1 by lia. lia.
    + destruct hf as ((A & n1 & k1) & _). apply hn in n1. subst. lia.
Qed.

Lemma empty_iff A : CtAccounts.IsEmpty (s_accounts s) A = true <-> CtAccounts.GetBalance (s_accounts s) A = 0 /\ CtAccounts.GetCode (s_accounts s) A = [].
Proof.
  unfold CtAccounts.IsEmpty, CtAccounts.GetBalance, CtAccounts.GetCode. rewrite andb_true_iff, Z.eqb_eq. destruct (Code _); split; intros [h1 h2]; split; congruence.
Qed.

Lemma fulfilled_checks c g g' : cond_ok c -> Restrict c g = Some g' -> Forall (state_fulfils b s) (asked c) -> Check s c = Some true.
Proof.
  intros hok h hf. destruct hv as (v1 & v2 & v3 & v4 & v5 & v6 & v7 & v8 & v9 & v10 & v11 & v12 & v13).
  destruct c; cbn [Restrict asked cond_ok] in *.
  - destruct c.
    + eapply compare_expr; [exact hok|exact h| |exact hf]; auto.
    + eapply compare_expr; [exact hok|exact h| |exact hf]; auto.
    + destruct (Predecessor e v) as [w|] eqn:ep; [|discriminate]. cbn [or_zero] in hf. eapply compare_expr; [exact hok|exact h| |exact hf]; auto.
    + eapply compare_expr; [exact hok|exact h| |exact hf]; auto.
    + destruct (Successor e v) as [w|] eqn:ep; [|discriminate]. cbn [or_zero] in hf. eapply compare_expr; [exact hok|exact h| |exact hf]; auto.
    + eapply compare_expr; [exact hok|exact h| |exact hf]; auto.
  - apply Forall_inv in hf. cbn [state_fulfils block_fulfils Check] in *. rewrite v12. f_equal. apply andb_true_iff. split; apply Z.leb_le; lia.
  - rewrite !Forall_cons_iff in hf. destruct hf as (h1 & h2 & _). cbn [state_fulfils code_fulfils] in h2. destruct h2 as (p & o & hb & ho).
    destruct (code_eval e p o hok h1 hb (or_introl ho)) as [e1 e2]. cbn [Check]. rewrite e1, e2. destruct (op_at _ _ _ ho v5) as (_ & _ & ->). reflexivity.
  - rewrite !Forall_cons_iff in hf. destruct hf as (h1 & h2 & _). cbn [state_fulfils code_fulfils] in h2. destruct h2 as (p & hb & ho1 & ho2).
    destruct (code_eval e p 0 hok h1 hb (or_intror (conj ho2 ho1))) as [e1 e2]. cbn [Check]. rewrite e1, e2. destruct (data_code _ _ ho2 ho1) as (_ & ->). reflexivity.
  - rewrite !Forall_cons_iff in hf. destruct hf as (h1 & (k & hb & hk) & _). destruct (param_eval e hok h1) as (u & h3 & h4). assert (u = k) by congruence. subst u. cbn [Check]. rewrite h4, hk. reflexivity.
  - rewrite !Forall_cons_iff in hf. destruct hf as (h1 & (k & hb & hk) & _). destruct (param_eval e hok h1) as (u & h3 & h4). assert (u = k) by congruence. subst u. cbn [Check]. rewrite h4, hk. reflexivity.
  - destruct hok as [p1 p2]. rewrite !Forall_cons_iff in hf. destruct hf as (h1 & h2 & (k & w & hb & hc & hk) & _).
    destruct (param_eval key p1 h1) as (u & h3 & h4). assert (u = k) by congruence. subst u. destruct (param_eval value p2 h2) as (u & h5 & h6). assert (u = w) by congruence. subst u.
    cbn [Check]. rewrite h4, h6, hk. destruct config; reflexivity.
  - rewrite !Forall_cons_iff in hf. destruct hf as (h1 & (k & hb & hk) & _). destruct (param_eval key hok h1) as (u & h3 & h4). assert (u = k) by congruence. subst u. cbn [Check]. rewrite h4.
    apply Z.eqb_neq in hk. rewrite hk. reflexivity.
  - rewrite !Forall_cons_iff in hf. destruct hf as (h1 & (k & hb & hk) & _). destruct (param_eval key hok h1) as (u & h3 & h4). assert (u = k) by congruence. subst u. cbn [Check]. rewrite h4, hk. reflexivity.
  - rewrite !Forall_cons_iff in hf. destruct hf as (h1 & (A & (k & hb & hA) & hk) & _). destruct (param_eval a hok h1) as (u & h3 & h4). cbn [variable_of] in hb. assert (u = k) by congruence. subst u A. cbn [Check]. rewrite h4. unfold NewAddress.
    apply empty_iff in hk. rewrite hk. reflexivity.
  - rewrite !Forall_cons_iff in hf. destruct hf as (h1 & (A & (k & hb & hA) & hk) & _). destruct (param_eval a hok h1) as (u & h3 & h4). cbn [variable_of] in hb. assert (u = k) by congruence. subst u A. cbn [Check]. rewrite h4. unfold NewAddress.
    rewrite <- empty_iff in hk. apply not_true_iff_false in hk. rewrite hk. reflexivity.
  - rewrite !Forall_cons_iff in hf. destruct hf as (h1 & (A & (k & hb & hA) & hk) & _). destruct (param_eval a hok h1) as (u & h3 & h4). cbn [variable_of] in hb. assert (u = k) by congruence. subst u A. cbn [Check]. rewrite h4. unfold NewAddress.
    rewrite hk. reflexivity.
  - rewrite !Forall_cons_iff in hf. destruct hf as (h1 & (A & (k & hb & hA) & hk) & _). destruct (param_eval a hok h1) as (u & h3 & h4). cbn [variable_of] in hb. assert (u = k) by congruence. subst u A. cbn [Check]. rewrite h4. unfold NewAddress.
    rewrite hk. reflexivity.
  - apply Forall_inv in hf. cbn [Check]. f_equal. exact hf.
  - apply Forall_inv in hf. cbn [Check]. f_equal. cbn [state_fulfils] in hf. rewrite hf. reflexivity.
  - rewrite !Forall_cons_iff in hf. destruct hf as (h1 & (k & hb & hk) & _). destruct (param_eval n hok h1) as (u & h3 & h4). assert (u = k) by congruence. subst u. cbn [Check]. rewrite h4. unfold recent in hk. f_equal.
    unfold isUint64. destruct (Z.ltb_spec k (2 ^ 64)); [|lia]. cbn [andb]. destruct (Z.ltb_spec k (s_block s)); [|lia]. rewrite andb_true_r. apply Z.leb_le. destruct (256 <? s_block s); lia.
  - rewrite !Forall_cons_iff in hf. destruct hf as (h1 & (k & hb & hw & hk) & _). destruct (param_eval n hok h1) as (u & h3 & h4). assert (u = k) by congruence. subst u. cbn [Check]. rewrite h4. unfold recent in hk. f_equal. apply negb_true_iff.
    apply not_true_iff_false. intros e. rewrite !andb_true_iff in e. destruct e as [[e1 e2] e3]. apply Z.leb_le in e2. apply Z.ltb_lt in e3. apply hk. unfold is_word in hw. destruct (Z.ltb_spec 256 (s_block s)); lia.
  - rewrite !Forall_cons_iff in hf. destruct hf as (h1 & (k & hb & hk) & _). destruct (param_eval i hok h1) as (u & h3 & h4). assert (u = k) by congruence. subst u. cbn [Check]. rewrite h4. f_equal.
    unfold isUint64. apply andb_true_iff. split; apply Z.ltb_lt; lia.
  - rewrite !Forall_cons_iff in hf. destruct hf as (h1 & (k & hb & hk) & _). destruct (param_eval i hok h1) as (u & h3 & h4). assert (u = k) by congruence. subst u. cbn [Check]. rewrite h4. f_equal. apply negb_true_iff.
    destruct (Z.ltb_spec k (s_blobs s)); [lia|]. apply andb_false_r.
Qed.
End Checks.

Theorem conditions_sound : forall d fuel cs, Forall cond_ok cs -> proper_draws d (asked_all cs) -> fresh_addresses d (fun _ => None) (asked_all cs) ->
  forall s b, GenerateSatisfyingState d fuel cs = Some (Generated (s, b)) -> Forall (fun c => Check s c = Some true \/ excused b s cs c) cs.
Proof.
  intros d fuel cs hok hd hf s b h. unfold GenerateSatisfyingState in h. destruct (RestrictAll cs NewStateGenerator) as [g|] eqn:er; [|discriminate].
  pose proof (asked_all_ok _ _ _ hok er) as hq. pose proof (restrict_all_asked _ _ _ hok er) as eg. subst g. injection h as h.
  assert (hw : words (fun _ : Z => None)) by (intros x v e; discriminate).
  destruct (state_sound d fuel (fun _ => None) (asked_all cs) hd hf hw hq s b h) as (hv & hall & _).
  assert (hr : forall c, In c cs -> exists g g', Restrict c g = Some g').
  { revert er. generalize NewStateGenerator, (fold_left state_call (asked_all cs) NewStateGenerator). clear. induction cs as [|c cs ih]; intros g g' er c' hc; [destruct hc|].
    cbn [RestrictAll] in er. destruct (Restrict c g) as [g1|] eqn:e; [|discriminate]. destruct hc as [<-|hc]; [eauto|eapply ih; eassumption]. }
  apply Forall_forall. intros c hc. rewrite Forall_forall in hok, hall. destruct (hr c hc) as (g & g' & e).
  assert (hsplit : Forall (state_fulfils b s) (asked c) \/ excused b s cs c).
  { assert (hi : forall q, In q (asked c) -> state_fulfils b s q \/ missed b s (asked_all cs) q) by (intros q i; apply hall; apply in_flat_map; exists c; split; assumption).
    unfold excused. revert hi. generalize (asked c). clear. intros l. induction l as [|q l ih]; intros hi; [left; constructor|].
    destruct (hi q (or_introl eq_refl)) as [h|h]; [|right; exists q; split; [left; reflexivity|exact h]].
    destruct (ih (fun r i => hi r (or_intror i))) as [k|(r & k1 & k2)]; [left; constructor; assumption|right; exists r; split; [right; exact k1|exact k2]]. }
  destruct hsplit as [k|k]; [left; eapply fulfilled_checks; [exact hv|apply hok; exact hc|exact e|exact k]|right; exact k].
Qed.
