(** Rules of the conformance tests: states, conditions, memory and code. *)
From Verif Require Import Base Host Uint256 SpecEvm SpecVm ArithFacts MemFacts JumpFacts GoAdapter GoStorage LfvmCode Lfvm LfvmOps SpecLfvm Ct SpecCt PropFacts2 CtRules SpecRules.
From Coq Require Import Lia ZArith List Bool.
Import ListNotations.
Open Scope Z_scope.

(** ** Code *)
Lemma skipn_add {A} n : forall m (l : list A), skipn n (skipn m l) = skipn (n + m) l.
Proof. induction m as [|m ih]; intros l; [rewrite Nat.add_0_r; reflexivity|]. rewrite Nat.add_succ_r. destruct l as [|a l]; [destruct n; reflexivity|]. cbn [skipn]. apply ih. Qed.

Definition covered (code : list Z) (q : Z) : Prop := exists r, instr_start code r /\ r < zlen code /\ r < q <= r + push_len (code_at code r).
Lemma isCode_loop_at code fuel : forall p q, instr_start code p -> p <= q -> zlen code - p <= Z.of_nat fuel ->
  match znth (isCode_loop fuel (skipn (Z.to_nat p) code)) (q - p) with
  | Some true => instr_start code q /\ q < zlen code
  | Some false => covered code q
  | None => zlen code <= q /\ ~ covered code q
  end.
Proof.
  assert (out : forall p q, instr_start code p -> p <= q -> zlen code <= p -> zlen code <= q /\ ~ covered code q).
  { intros p q hp hq h. split; [lia|]. intros (r & h1 & h2 & h3). pose proof (start_gap code p hp r h1 ltac:(lia)). lia. }
  induction fuel as [|fuel IH]; intros p q hp hq hf; pose proof (start_nonneg code p hp) as h0.
  - assert (e : skipn (Z.to_nat p) code = []) by (apply skipn_all2; unfold zlen in *; lia). rewrite e. cbn [isCode_loop]. rewrite (proj2 (znth_none (@nil bool) (q - p))) by (cbn; lia). apply (out p); lia || assumption.
  - destruct (Z_lt_ge_dec p (zlen code)) as [hin|hout].
    2:{ assert (e : skipn (Z.to_nat p) code = []) by (apply skipn_all2; unfold zlen in *; lia). rewrite e. cbn [isCode_loop]. rewrite (proj2 (znth_none (@nil bool) (q - p))) by (cbn; lia). apply (out p); lia || assumption. }
    assert (e : skipn (Z.to_nat p) code = code_at code p :: skipn (Z.to_nat (p + 1)) code).
    { replace (Z.to_nat (p + 1)) with (S (Z.to_nat p)) by lia. unfold code_at. rewrite data_at_nth by lia. assert (hl : (Z.to_nat p < length code)%nat) by (unfold zlen in *; lia).
      clear - hl. revert hl. generalize (Z.to_nat p) as k. intros k. revert code. induction k as [|k ih]; intros [|x code] h; cbn [length] in h; try lia; [reflexivity|]. cbn [skipn nth]. apply ih. lia. }
    rewrite e. cbn [isCode_loop]. pose proof (start_next code p hp hin) as hn.
    destruct ((0x60 <=? code_at code p) && (code_at code p <=? 0x7F)) eqn:eb.
    + assert (en : push_len (code_at code p) = code_at code p - 0x60 + 1) by (unfold push_len; rewrite eb; lia). rewrite andb_true_iff, !Z.leb_le in eb.
      set (n := code_at code p - 0x60 + 1) in *. rewrite en in hn.
      destruct (Z.eq_dec q p) as [->|hne]; [rewrite Z.sub_diag; cbn; auto|].
      assert (ex : forall l, znth (true :: repeat false (Z.to_nat n) ++ l) (q - p) = if q <=? p + n then Some false else znth l (q - (p + 1 + n))).
      { intros l. rewrite (znth_nth _ (q - p)) by lia. replace (Z.to_nat (q - p)) with (S (Z.to_nat (q - p - 1))) by lia. cbn [nth_error]. destruct (Z.leb_spec q (p + n)).
        - rewrite nth_error_app1 by (rewrite repeat_length; lia). rewrite (nth_error_nth' _ false) by (rewrite repeat_length; lia). f_equal. apply nth_repeat.
        - rewrite nth_error_app2 by (rewrite repeat_length; lia). rewrite repeat_length, znth_nth by lia. f_equal. lia. }
      rewrite ex. destruct (Z.leb_spec q (p + n)) as [hle|hgt].
      * exists p. rewrite en. split; [exact hp|]. lia.
      * rewrite skipn_add. replace (Z.to_nat n + Z.to_nat (p + 1))%nat with (Z.to_nat (p + 1 + n)) by lia. apply IH; [exact hn| |]; lia.
    + assert (en : push_len (code_at code p) = 0) by (unfold push_len; rewrite eb; reflexivity). rewrite en, Z.add_0_r in hn.
      destruct (Z.eq_dec q p) as [->|hne]; [rewrite Z.sub_diag; cbn; auto|].
      assert (ex : forall l, znth (true :: l) (q - p) = znth l (q - (p + 1))).
      { intros l. rewrite (znth_nth _ (q - p)), (znth_nth l) by lia. replace (Z.to_nat (q - p)) with (S (Z.to_nat (q - (p + 1)))) by lia. reflexivity. }
      rewrite ex. apply IH; [exact hn| |]; lia.
Qed.
Lemma isCode_at code q : 0 <= q ->
  match znth (isCode_of code) q with
  | Some true => instr_start code q /\ q < zlen code
  | Some false => covered code q
  | None => zlen code <= q /\ ~ covered code q
  end.
Proof. intros h. pose proof (isCode_loop_at code (length code) 0 q (start_zero code) h ltac:(unfold zlen; lia)) as X. rewrite Z.sub_0_r in X. exact X. Qed.
Lemma covered_not_start code q : covered code q -> ~ instr_start code q.
Proof. intros (r & h1 & h2 & h3) h. pose proof (start_gap code q h r h1 ltac:(lia)). lia. Qed.
Lemma code_iff code q : 0 <= q -> IsCodeAt code q = true <-> ~ covered code q.
Proof.
  intros h. unfold IsCodeAt. pose proof (isCode_at code q h) as X. destruct (znth (isCode_of code) q) as [[|]|].
  - split; [intros _ hc; exact (covered_not_start code q hc (proj1 X))|reflexivity].
  - split; [discriminate|contradiction].
  - tauto.
Qed.
Lemma GetOperation_eq code q : 0 <= q -> GetOperation code q = Ok (if IsCodeAt code q then Some (code_at code q) else None).
Proof.
  intros h. unfold GetOperation, IsCodeAt. pose proof (isCode_at code q h) as X. destruct (znth (isCode_of code) q) as [[|]|]; [|reflexivity|].
  - rewrite znth_data by lia. reflexivity.
  - unfold code_at. rewrite data_at_out by lia. reflexivity.
Qed.
Lemma is_dest_code code d : 0 <= d -> is_dest code d = IsCodeAt code d && (code_at code d =? 0x5B).
Proof.
  intros h. pose proof (is_dest_spec_or code d) as X. destruct (Z.eqb_spec (code_at code d) 0x5B) as [e|e]; rewrite ?andb_true_r, ?andb_false_r.
  2:{ destruct (is_dest code d); [|reflexivity]. destruct X as (_ & _ & X). contradiction. }
  assert (hl : d < zlen code). { destruct (Z_lt_ge_dec d (zlen code)); [assumption|]. unfold code_at in e. rewrite data_at_out in e by lia. discriminate. }
  unfold IsCodeAt. pose proof (isCode_at code d h) as Y. destruct (znth (isCode_of code) d) as [[|]|].
  - destruct (is_dest code d); [reflexivity|]. elim X. split; [apply Y|]. tauto.
  - destruct (is_dest code d); [|reflexivity]. elim (covered_not_start code d Y). apply X.
  - lia.
Qed.
Lemma GetData_eq code pc i : 0 <= pc -> IsCodeAt code pc = true -> 0 < i <= push_len (code_at code pc) -> GetData code (pc + i) = Some (code_at code (pc + i)).
Proof.
  intros h hc hi. assert (hl : pc < zlen code). { destruct (Z_lt_ge_dec pc (zlen code)); [assumption|]. unfold code_at, push_len in hi. rewrite (data_at_out code pc) in hi by lia. cbn in hi. lia. }
  unfold IsCodeAt in hc. pose proof (isCode_at code pc h) as X. destruct (znth (isCode_of code) pc) as [[|]|]; [|discriminate|lia].
  unfold GetData. assert (e : IsCodeAt code (pc + i) = false). { apply not_true_iff_false. rewrite code_iff by lia. intros k. apply k. exists pc. split; [apply X|]. lia. }
  rewrite e. unfold code_at. destruct (Z_lt_ge_dec (pc + i) (zlen code)); [rewrite znth_data by lia; reflexivity|]. rewrite (proj2 (znth_none code (pc + i))) by lia. rewrite data_at_out by lia. reflexivity.
Qed.
Lemma get_data_eq code pc : 0 <= pc -> IsCodeAt code pc = true -> forall n i, 0 < i -> i + Z.of_nat n <= 1 + push_len (code_at code pc) ->
  get_data n (pc + i) code = Ok (data_bytes code (pc + i) (Z.of_nat n)).
Proof.
  intros h hc. induction n as [|n ih]; intros i h0 hi; [reflexivity|]. cbn [get_data]. rewrite GetData_eq by (auto; lia). rewrite <- Z.add_assoc, ih by lia. cbn [rbind]. f_equal.
  unfold data_bytes. rewrite !Nat2Z.id. cbn [seq map]. f_equal; [unfold code_at; f_equal; lia|]. rewrite <- seq_shift, map_map. apply map_ext. intros k. f_equal. lia.
Qed.

(** ** States *)
Definition mk (b : state) (pc gas refund : Z) (st mem last : list Z) (w : ctw) : state :=
  mkCt CtRunning (ct_revision b) (ct_readonly b) pc gas refund (ct_code b) (rev st) mem (ct_self b) (ct_caller b) (ct_value b) (ct_calldata b) last [] w.
Lemma mk_self b : ct_stat b = CtRunning -> ct_ret b = [] -> b = mk b (ct_pc b) (ct_gas b) (ct_refund b) (rev (ct_stack b)) (ct_mem b) (ct_last b) (ct_world b).
Proof. unfold mk. rewrite rev_involutive. destruct b. cbn. intros -> ->. reflexivity. Qed.

Lemma mk_start b p g : ct_stat b = CtRunning -> ct_ret b = [] -> set_pc p (set_gas g b) = mk b p g (ct_refund b) (rev (ct_stack b)) (ct_mem b) (ct_last b) (ct_world b).
Proof. unfold mk. rewrite rev_involutive. destruct b. cbn. intros -> ->. reflexivity. Qed.

Section Mk.
Variables (b : state) (pc g rf : Z) (st mem last : list Z) (w : ctw).
Notation S0 := (mk b pc g rf st mem last w).
Lemma mk_pop a : pop (mk b pc g rf (a :: st) mem last w) = Ok (a, S0).
Proof. unfold pop. change (ct_stack (mk b pc g rf (a :: st) mem last w)) with (rev (a :: st)). rewrite rev_involutive. reflexivity. Qed.
Lemma mk_push v : push v S0 = mk b pc g rf (v :: st) mem last w. Proof. reflexivity. Qed.
Lemma mk_set_pc v : set_pc v S0 = mk b v g rf st mem last w. Proof. reflexivity. Qed.
Lemma mk_set_gas v : set_gas v S0 = mk b pc v rf st mem last w. Proof. reflexivity. Qed.
Lemma mk_set_refund v : set_refund v S0 = mk b pc g v st mem last w. Proof. reflexivity. Qed.
Lemma mk_set_mem v : set_mem v S0 = mk b pc g rf st v last w. Proof. reflexivity. Qed.
Lemma mk_set_last v : set_last v S0 = mk b pc g rf st mem v w. Proof. reflexivity. Qed.
Lemma mk_set_world v : set_world v S0 = mk b pc g rf st mem last v. Proof. reflexivity. Qed.
Lemma mk_pc : ct_pc S0 = pc. Proof. reflexivity. Qed.
Lemma mk_gas : ct_gas S0 = g. Proof. reflexivity. Qed.
Lemma mk_refund : ct_refund S0 = rf. Proof. reflexivity. Qed.
Lemma mk_mem : ct_mem S0 = mem. Proof. reflexivity. Qed.
Lemma mk_last : ct_last S0 = last. Proof. reflexivity. Qed.
Lemma mk_world : ct_world S0 = w. Proof. reflexivity. Qed.
Lemma mk_code : ct_code S0 = ct_code b. Proof. reflexivity. Qed.
Lemma mk_revision : ct_revision S0 = ct_revision b. Proof. reflexivity. Qed.
Lemma mk_readonly : ct_readonly S0 = ct_readonly b. Proof. reflexivity. Qed.
Lemma mk_selfa : ct_self S0 = ct_self b. Proof. reflexivity. Qed.
Lemma mk_caller : ct_caller S0 = ct_caller b. Proof. reflexivity. Qed.
Lemma mk_value : ct_value S0 = ct_value b. Proof. reflexivity. Qed.
Lemma mk_calldata : ct_calldata S0 = ct_calldata b. Proof. reflexivity. Qed.
Lemma mk_stack : ct_stack S0 = rev st. Proof. reflexivity. Qed.
Lemma mk_get i : 0 <= i < zlen st -> get i S0 = Ok (nth (Z.to_nat i) st 0).
Proof.
  intros h. unfold get. rewrite mk_stack. assert (hl : zlen (rev st) = zlen st) by (unfold zlen; rewrite rev_length; reflexivity). rewrite hl.
  rewrite (znth_some (rev st) _ 0) by lia. f_equal. rewrite rev_nth by (unfold zlen in *; lia). f_equal. unfold zlen in *. lia.
Qed.
Lemma rev_upd (l : list Z) k v : (k < length l)%nat -> list_upd (rev l) (length l - S k) v = rev (list_upd l k v).
Proof.
  intros h. apply (nth_ext _ _ 0 0); [rewrite list_upd_length, !rev_length, list_upd_length; reflexivity|]. intros i hi. rewrite list_upd_length, rev_length in hi.
  rewrite list_upd_nth by (rewrite rev_length; lia). rewrite !rev_nth by (rewrite ?list_upd_length; lia). rewrite list_upd_length, list_upd_nth by lia.
  destruct (Nat.eqb_spec i (length l - S k)); destruct (Nat.eqb_spec (length l - S i) k); try lia; reflexivity.
Qed.
Lemma mk_set i v : 0 <= i < zlen st -> set i v S0 = Ok (mk b pc g rf (list_upd st (Z.to_nat i) v) mem last w).
Proof.
  intros h. unfold set. rewrite mk_stack. assert (hl : zlen (rev st) = zlen st) by (unfold zlen; rewrite rev_length; reflexivity). rewrite hl.
  assert (e : (0 <=? zlen st - i - 1) && (zlen st - i - 1 <? zlen st) = true) by lia. rewrite e. f_equal. unfold mk, set_stack. cbn [ct_stat ct_revision ct_readonly ct_pc ct_gas ct_refund ct_code ct_mem ct_self ct_caller ct_value ct_calldata ct_last ct_ret ct_world]. f_equal.
  replace (Z.to_nat (zlen st - i - 1)) with (length st - S (Z.to_nat i))%nat by (unfold zlen in *; lia). apply rev_upd. unfold zlen in *; lia.
Qed.
End Mk.
#[export] Hint Rewrite mk_pop mk_push mk_set_pc mk_set_gas mk_set_refund mk_set_mem mk_set_last mk_set_world mk_pc mk_gas mk_refund mk_mem mk_last mk_world mk_code mk_revision mk_readonly mk_selfa mk_caller mk_value mk_calldata mk_stack : ct.
Lemma mk_pops b pc g rf mem last w n : forall st, (n <= length st)%nat ->
  pops n (mk b pc g rf st mem last w) = Ok (firstn n st, mk b pc g rf (skipn n st) mem last w).
Proof.
  induction n as [|n ih]; intros st h; [reflexivity|]. destruct st as [|a st]; [cbn in h; lia|]. cbn [pops]. rewrite mk_pop. cbn [rbind]. rewrite ih by (cbn in h; lia). reflexivity.
Qed.
Global Opaque mk.

(** ** Conditions *)
Section Conditions.
Variable tx : tx_context.
Definition holds (s : state) (c : cond) : Prop := check tx s c = Ok (Some true).
Lemma check_all_holds s cs : check_all tx s cs = Ok (Some true) <-> Forall (holds s) cs.
Proof.
  induction cs as [|c cs ih]; cbn [check_all]; [split; [constructor|reflexivity]|]. split.
  - intros h. destruct (check tx s c) as [[[|]|]| |] eqn:e; cbn [rbind] in h; try discriminate. constructor; [exact e|]. apply ih, h.
  - intros h. inversion h as [|? ? h1 h2]; subst. unfold holds in h1. rewrite h1. cbn [rbind]. apply ih, h2.
Qed.
Lemma eval_param s i : 0 <= i -> eval s (EParam i) = Ok (znth (rev (ct_stack s)) i).
Proof.
  intros h. cbn [eval]. assert (hl : zlen (rev (ct_stack s)) = zlen (ct_stack s)) by (unfold zlen; rewrite rev_length; reflexivity).
  destruct (Z.leb_spec (zlen (ct_stack s)) i) as [hle|hlt].
  - rewrite (proj2 (znth_none (rev (ct_stack s)) i)) by lia. reflexivity.
  - unfold get. rewrite (znth_some (ct_stack s) _ 0) by lia. cbn [rbind]. rewrite (znth_some (rev (ct_stack s)) _ 0) by lia. f_equal. f_equal.
    rewrite rev_nth by (unfold zlen in *; lia). f_equal. unfold zlen in *. lia.
Qed.
Lemma holds_op s op : 0 <= ct_pc s < 65536 -> holds s (OpIs op) <-> IsCodeAt (ct_code s) (ct_pc s) = true /\ code_at (ct_code s) (ct_pc s) = op.
Proof.
  intros h. unfold holds, OpIs. cbn [check eval rbind]. unfold isUint64. assert (e : negb (ct_pc s <? 2 ^ 64) || (2 ^ 63 - 1 <? ct_pc s) = false) by lia. rewrite e.
  rewrite GetOperation_eq by lia. cbn [rbind]. destruct (IsCodeAt (ct_code s) (ct_pc s)); [|split; [discriminate|intros [k _]; discriminate]]. cbn [compare].
  destruct (Z.eqb_spec (code_at (ct_code s) (ct_pc s)) op) as [e'|e']; split; try tauto; discriminate.
Qed.
Lemma ok_true (x : bool) : Ok (Some x) = Ok (Some true) <-> x = true. Proof. split; [intros h; injection h as ->; reflexivity|intros ->; reflexivity]. Qed.
Lemma holds_running s : holds s Running <-> ct_stat s = CtRunning.
Proof. unfold holds, Running. cbn [check eval rbind compare]. rewrite ok_true. destruct (ct_stat s); cbn; split; congruence. Qed.
Lemma holds_rev s lo hi : holds s (RevisionBounds lo hi) <-> lo <= ct_revision s <= hi.
Proof. unfold holds. cbn [check]. rewrite ok_true. lia. Qed.
Lemma holds_gas_lt s v : holds s (Cmp Lt EGas v) <-> ct_gas s < v.
Proof. unfold holds. cbn [check eval rbind compare]. rewrite ok_true. lia. Qed.
Lemma holds_gas_ge s v : holds s (Cmp Ge EGas v) <-> v <= ct_gas s.
Proof. unfold holds. cbn [check eval rbind compare]. rewrite ok_true. lia. Qed.
Lemma holds_size_lt s v : holds s (Cmp Lt ESize v) <-> zlen (ct_stack s) < v.
Proof. unfold holds. cbn [check eval rbind compare]. rewrite ok_true. lia. Qed.
Lemma holds_size_ge s v : holds s (Cmp Ge ESize v) <-> v <= zlen (ct_stack s).
Proof. unfold holds. cbn [check eval rbind compare]. rewrite ok_true. lia. Qed.
Lemma holds_size_le s v : holds s (Cmp Le ESize v) <-> zlen (ct_stack s) <= v.
Proof. unfold holds. cbn [check eval rbind compare]. rewrite ok_true. lia. Qed.
Lemma holds_ro s v : holds s (ReadOnly v) <-> ct_readonly s = v.
Proof. unfold holds, ReadOnly. cbn [check eval rbind compare]. rewrite ok_true. destruct v, (ct_readonly s); cbn; split; congruence. Qed.
(** conditions on one argument *)
Definition on_arg (s : state) (i : Z) (P : Z -> bool) : Prop := exists v, znth (rev (ct_stack s)) i = Some v /\ P v = true.
Lemma on_param s i P : 0 <= i -> (do! v <- eval s (EParam i); match v with None => Ok None | Some v => Ok (Some (P v)) end) = Ok (Some true) <-> on_arg s i P.
Proof.
  intros h. rewrite eval_param by exact h. cbn [rbind]. unfold on_arg. destruct (znth (rev (ct_stack s)) i) as [v|]; [rewrite ok_true|].
  - split; [eauto|]. intros (v' & e & k). injection e as <-. exact k.
  - split; [discriminate|intros (v' & e & _); discriminate].
Qed.
End Conditions.
