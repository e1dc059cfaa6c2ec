(** The rules of the conformance tests: which states have rules. *)
From Verif Require Import Base Host Uint256 SpecEvm SpecVm ArithFacts MemFacts JumpFacts GoAdapter GoStorage LfvmCode Lfvm LfvmOps SpecLfvm Ct SpecCt PropFacts2 CtRules SpecRules CtRuleFacts CtMemFacts CtRulesTop.
From Coq Require Import Lia ZArith List Bool.
Import ListNotations.
Open Scope Z_scope.

(** ** Conditions as tests of a summary of the state *)
Inductive atom : Set := ACode | AJumpdest | AZero1 | AZero2 | ASlot | ATransient | AEmpty | AWarm0 | AWarm1 | ADestructed | ARange | ABlob | ANoFunds.
Inductive test : Set := TRun | TOp (v : Z) | TRo (b : bool) | TGasLt (v : Z) | TGasGe (v : Z) | TSizeLt (v : Z) | TSizeGe (v : Z) | TSizeLe (v : Z) | TRev (lo hi : Z)
| TPos (a : atom) | TNeg (a : atom) | TStatus (c : storage_status).
Definition test_of (c : cond) : option test :=
  match c with
  | Cmp Eq EStatus 0 => Some TRun
  | Cmp Eq (EOp EPc) v => Some (TOp v)
  | Cmp Eq EReadOnly 1 => Some (TRo true)
  | Cmp Eq EReadOnly 0 => Some (TRo false)
  | Cmp Lt EGas v => Some (TGasLt v)
  | Cmp Ge EGas v => Some (TGasGe v)
  | Cmp Lt ESize v => Some (TSizeLt v)
  | Cmp Ge ESize v => Some (TSizeGe v)
  | Cmp Le ESize v => Some (TSizeLe v)
  | RevisionBounds lo hi => Some (TRev lo hi)
  | IsCode (EParam 0) => Some (TPos ACode)
  | IsData (EParam 0) => Some (TNeg ACode)
  | Cmp Eq (EOp (EParam 0)) 0x5B => Some (TPos AJumpdest)
  | Cmp Ne (EOp (EParam 0)) 0x5B => Some (TNeg AJumpdest)
  | Cmp Eq (EParam 1) 0 => Some (TPos AZero1)
  | Cmp Ne (EParam 1) 0 => Some (TNeg AZero1)
  | Cmp Eq (EParam 2) 0 => Some (TPos AZero2)
  | Cmp Ne (EParam 2) 0 => Some (TNeg AZero2)
  | IsStorageWarm (EParam 0) => Some (TPos ASlot)
  | IsStorageCold (EParam 0) => Some (TNeg ASlot)
  | TransientZero (EParam 0) => Some (TPos ATransient)
  | TransientNonZero (EParam 0) => Some (TNeg ATransient)
  | AccountIsEmpty (EParam 0) => Some (TPos AEmpty)
  | AccountIsNotEmpty (EParam 0) => Some (TNeg AEmpty)
  | IsAddressWarm (EParam 0) => Some (TPos AWarm0)
  | IsAddressCold (EParam 0) => Some (TNeg AWarm0)
  | IsAddressWarm (EParam 1) => Some (TPos AWarm1)
  | IsAddressCold (EParam 1) => Some (TNeg AWarm1)
  | HasSelfDestructed => Some (TPos ADestructed)
  | HasNotSelfDestructed => Some (TNeg ADestructed)
  | InRange256 (EParam 0) => Some (TPos ARange)
  | OutOfRange256 (EParam 0) => Some (TNeg ARange)
  | HasBlobHash (EParam 0) => Some (TPos ABlob)
  | HasNoBlobHash (EParam 0) => Some (TNeg ABlob)
  | Cmp Eq EBalanceOfSelf 0 => Some (TPos ANoFunds)
  | Cmp Gt EBalanceOfSelf 0 => Some (TNeg ANoFunds)
  | StorageConfiguration c (EParam 0) (EParam 1) => Some (TStatus c)
  | _ => None
  end.
(** number of arguments that an atom looks at *)
Definition needs (a : atom) : Z := match a with ADestructed | ANoFunds => 0 | AZero1 | AWarm1 => 2 | AZero2 => 3 | _ => 1 end.
Record summary : Type := mkSum { a_op : Z; a_rev : Z; a_ro : bool; a_gas : Z; a_size : Z; a_status : storage_status; a_val : atom -> bool }.
Definition passes_test (A : summary) (t : test) : bool :=
  match t with
  | TRun => true
  | TOp v => a_op A =? v
  | TRo b => Bool.eqb (a_ro A) b
  | TGasLt v => a_gas A <? v
  | TGasGe v => negb (a_gas A <? v)
  | TSizeLt v => a_size A <? v
  | TSizeGe v => negb (a_size A <? v)
  | TSizeLe v => a_size A <? v + 1
  | TRev lo hi => (lo <=? a_rev A) && (a_rev A <=? hi)
  | TPos a => negb (a_size A <? needs a) && (match a with AJumpdest => a_val A ACode | _ => true end) && a_val A a
  | TNeg a => negb (a_size A <? needs a) && (match a with AJumpdest => a_val A ACode | _ => true end) && negb (a_val A a)
  | TStatus c => negb (a_size A <? 2) && status_is c (a_status A)
  end.

Section Cover.
Variable tx : tx_context.
Variable keccak : list Z -> Z.
Notation holds := (holds tx).
Notation rules := (getAllRules tx keccak).
Definition arg (s : state) (i : nat) : Z := nth i (rev (ct_stack s)) 0.
Definition atom_at (s : state) (a : atom) : bool :=
  match a with
  | ACode => IsCodeAt (ct_code s) (arg s 0)
  | AJumpdest => code_at (ct_code s) (arg s 0) =? 0x5B
  | AZero1 => arg s 1 =? 0
  | AZero2 => arg s 2 =? 0
  | ASlot => IsWarm (ct_world s) (arg s 0)
  | ATransient => TGet (ct_world s) (arg s 0) =? 0
  | AEmpty => AccIsEmpty (ct_world s) (bytes20 (arg s 0))
  | AWarm0 => AccIsWarm (ct_world s) (bytes20 (arg s 0))
  | AWarm1 => AccIsWarm (ct_world s) (bytes20 (arg s 1))
  | ADestructed => w_destructed (ct_world s)
  | ARange => isUint64 (arg s 0) && ((if 256 <? tx_number tx then tx_number tx - 256 else 0) <=? arg s 0) && (arg s 0 <? tx_number tx)
  | ABlob => isUint64 (arg s 0) && (arg s 0 <? zlen (tx_blob_hashes tx))
  | ANoFunds => GetBalance (ct_world s) (ct_self s) =? 0
  end.
Definition status_at (s : state) : storage_status := GetStorageStatus (GetOriginal (ct_world s) (arg s 0)) (GetCurrent (ct_world s) (arg s 0)) (arg s 1).
Definition summary_of (s : state) : summary :=
  mkSum (code_at (ct_code s) (ct_pc s)) (ct_revision s) (ct_readonly s) (ct_gas s) (zlen (ct_stack s)) (status_at s) (atom_at s).

Lemma param_at s i : (if zlen (ct_stack s) <? Z.of_nat i + 1 then None else Some (arg s i)) = znth (rev (ct_stack s)) (Z.of_nat i).
Proof.
  assert (hl : zlen (rev (ct_stack s)) = zlen (ct_stack s)) by (unfold zlen; rewrite rev_length; reflexivity).
  destruct (Z.ltb_spec (zlen (ct_stack s)) (Z.of_nat i + 1)); [symmetry; apply znth_none; lia|]. rewrite (znth_some _ _ 0) by lia. rewrite Nat2Z.id. reflexivity.
Qed.
Lemma on_one s i (k : Z -> bool) : (do! v <- eval s (EParam (Z.of_nat i)); match v with None => Ok None | Some v => Ok (Some (k v)) end) = Ok (Some true) <->
  negb (zlen (ct_stack s) <? Z.of_nat i + 1) && k (arg s i) = true.
Proof.
  rewrite eval_param by lia. rewrite <- param_at. cbn [rbind]. destruct (zlen (ct_stack s) <? Z.of_nat i + 1); cbn [negb andb]; [split; discriminate|]. apply ok_true.
Qed.
(** a word is the code beyond the end, a position, or a position of data *)
Lemma code_of_arg s : test_state s -> 1 <= zlen (ct_stack s) -> 0 <= arg s 0 /\
  ((negb (isUint64 (arg s 0)) || (2 ^ 63 - 1 <? arg s 0)) = true -> IsCodeAt (ct_code s) (arg s 0) = true /\ code_at (ct_code s) (arg s 0) = 0).
Proof.
  intros ht hz. assert (h0 : 0 <= arg s 0).
  { pose proof (ctk_words s (tst_ok s ht)) as hw. rewrite Forall_forall in hw. unfold arg. assert (hin : In (nth 0 (rev (ct_stack s)) 0) (ct_stack s)) by (apply in_rev, nth_In; rewrite rev_length; unfold zlen in hz; lia).
    destruct (hw _ hin). lia. }
  split; [exact h0|]. intros h. assert (hb : 2 ^ 63 <= arg s 0) by (unfold isUint64 in h; lia). pose proof (ctk_size s (tst_ok s ht)) as hs.
  split; [|unfold code_at; apply data_at_out; lia]. apply code_iff; [exact h0|]. intros (r & h1 & h2 & h3). pose proof (push_len_le (code_at (ct_code s) r)). lia.
Qed.
Definition cond_of (t : test) : cond :=
  match t with
  | TRun => Running
  | TOp v => OpIs v
  | TRo b => ReadOnly b
  | TGasLt v => Cmp Lt EGas v
  | TGasGe v => Cmp Ge EGas v
  | TSizeLt v => Cmp Lt ESize v
  | TSizeGe v => Cmp Ge ESize v
  | TSizeLe v => Cmp Le ESize v
  | TRev lo hi => RevisionBounds lo hi
  | TPos ACode => IsCode p0 | TNeg ACode => IsData p0
  | TPos AJumpdest => IsJumpdest p0 | TNeg AJumpdest => IsNotJumpdest p0
  | TPos AZero1 => Cmp Eq p1 0 | TNeg AZero1 => Cmp Ne p1 0
  | TPos AZero2 => Cmp Eq (EParam 2) 0 | TNeg AZero2 => Cmp Ne (EParam 2) 0
  | TPos ASlot => IsStorageWarm p0 | TNeg ASlot => IsStorageCold p0
  | TPos ATransient => TransientZero p0 | TNeg ATransient => TransientNonZero p0
  | TPos AEmpty => AccountIsEmpty p0 | TNeg AEmpty => AccountIsNotEmpty p0
  | TPos AWarm0 => IsAddressWarm p0 | TNeg AWarm0 => IsAddressCold p0
  | TPos AWarm1 => IsAddressWarm p1 | TNeg AWarm1 => IsAddressCold p1
  | TPos ADestructed => HasSelfDestructed | TNeg ADestructed => HasNotSelfDestructed
  | TPos ARange => InRange256 p0 | TNeg ARange => OutOfRange256 p0
  | TPos ABlob => HasBlobHash p0 | TNeg ABlob => HasNoBlobHash p0
  | TPos ANoFunds => Cmp Eq EBalanceOfSelf 0 | TNeg ANoFunds => Cmp Gt EBalanceOfSelf 0
  | TStatus c => StorageConfiguration c p0 p1
  end.
Lemma test_cond c t : test_of c = Some t -> c = cond_of t.
Proof.
  intros h. unfold test_of in h. repeat match type of h with match ?x with _ => _ end = Some _ => destruct x; try discriminate h end; injection h as <-; reflexivity.
Qed.
Lemma holds_size_tests s v : (holds s (Cmp Lt ESize v) <-> (zlen (ct_stack s) <? v) = true) /\ (holds s (Cmp Ge ESize v) <-> negb (zlen (ct_stack s) <? v) = true) /\ (holds s (Cmp Le ESize v) <-> (zlen (ct_stack s) <? v + 1) = true).
Proof. rewrite holds_size_lt, holds_size_ge, holds_size_le. lia. Qed.
Lemma code_test s : test_state s ->
  (holds s (IsCode p0) <-> negb (zlen (ct_stack s) <? 1) && IsCodeAt (ct_code s) (arg s 0) = true) /\ (holds s (IsData p0) <-> negb (zlen (ct_stack s) <? 1) && negb (IsCodeAt (ct_code s) (arg s 0)) = true).
Proof.
  intros ht. unfold CtRuleFacts.holds. cbn [check]. unfold p0. split; (etransitivity; [apply (on_one s 0)|]; change (Z.of_nat 0 + 1) with 1; destruct (Z.ltb_spec (zlen (ct_stack s)) 1) as [h|h]; cbn [negb andb]; [tauto|];
    destruct (code_of_arg s ht ltac:(lia)) as [_ k]; destruct (negb (isUint64 (arg s 0)) || (2 ^ 63 - 1 <? arg s 0)); [rewrite (proj1 (k eq_refl))|]; tauto).
Qed.
Lemma jumpdest_test s : test_state s ->
  (holds s (IsJumpdest p0) <-> negb (zlen (ct_stack s) <? 1) && IsCodeAt (ct_code s) (arg s 0) && (code_at (ct_code s) (arg s 0) =? 0x5B) = true) /\
  (holds s (IsNotJumpdest p0) <-> negb (zlen (ct_stack s) <? 1) && IsCodeAt (ct_code s) (arg s 0) && negb (code_at (ct_code s) (arg s 0) =? 0x5B) = true).
Proof.
  intros ht. unfold CtRuleFacts.holds, IsJumpdest, IsNotJumpdest. cbn [check]. unfold p0.
  assert (e : eval s (EOp (EParam 0)) = Ok (if negb (zlen (ct_stack s) <? 1) && IsCodeAt (ct_code s) (arg s 0) then Some (code_at (ct_code s) (arg s 0)) else None)).
  { change (eval s (EOp (EParam 0))) with (do! pos <- eval s (EParam 0); match pos with None => Ok None | Some pos => if negb (isUint64 pos) || (2 ^ 63 - 1 <? pos) then Ok (Some 0) else GetOperation (ct_code s) pos end).
    rewrite eval_param by lia. change 0 with (Z.of_nat 0) at 1. rewrite <- param_at. change (Z.of_nat 0 + 1) with 1. cbn [rbind]. destruct (Z.ltb_spec (zlen (ct_stack s)) 1) as [h|h]; [reflexivity|]. cbn [negb andb].
    destruct (code_of_arg s ht ltac:(lia)) as [h0 k]. destruct (negb (isUint64 (arg s 0)) || (2 ^ 63 - 1 <? arg s 0)); [destruct (k eq_refl) as [-> ->]; reflexivity|]. apply GetOperation_eq. exact h0. }
  rewrite e. cbn [rbind]. destruct (negb (zlen (ct_stack s) <? 1) && IsCodeAt (ct_code s) (arg s 0)); cbn [andb compare]; rewrite ?ok_true; [tauto|]. split; (split; discriminate).
Qed.
Ltac one i := unfold CtRuleFacts.holds; cbn [check]; unfold p0, p1; etransitivity; [apply (on_one _ i)|]; apply iff_refl.
Lemma test_sound s t : test_state s -> IsCodeAt (ct_code s) (ct_pc s) = true -> holds s (cond_of t) <-> passes_test (summary_of s) t = true.
Proof.
  intros ht hc. pose proof (tst_pc s ht) as hpc. pose proof (ctk_running s (tst_ok s ht)) as hrun.
  destruct t as [|v|b|v|v|v|v|v|lo hi|a|a|c]; cbn [cond_of passes_test summary_of a_op a_rev a_ro a_gas a_size a_status a_val].
  - rewrite holds_running. tauto.
  - rewrite holds_op by exact hpc. rewrite hc. rewrite Z.eqb_eq. tauto.
  - rewrite holds_ro. rewrite eqb_true_iff. tauto.
  - rewrite holds_gas_lt. lia.
  - rewrite holds_gas_ge. lia.
  - rewrite holds_size_lt. lia.
  - rewrite holds_size_ge. lia.
  - rewrite holds_size_le. lia.
  - rewrite holds_rev. lia.
  - destruct a; cbn [needs]; rewrite ?andb_true_r.
    + apply code_test. exact ht.
    + apply jumpdest_test. exact ht.
    + one 1%nat.
    + one 2%nat.
    + one 0%nat.
    + one 0%nat.
    + one 0%nat.
    + one 0%nat.
    + one 1%nat.
    + unfold CtRuleFacts.holds. cbn [check atom_at]. rewrite ok_true. assert (hz : (zlen (ct_stack s) <? 0) = false) by (pose proof (zlen_nonneg (ct_stack s)); lia). rewrite hz. cbn [negb andb]. tauto.
    + one 0%nat.
    + one 0%nat.
    + unfold CtRuleFacts.holds. cbn [check eval rbind compare atom_at]. rewrite ok_true. assert (hz : (zlen (ct_stack s) <? 0) = false) by (pose proof (zlen_nonneg (ct_stack s)); lia). rewrite hz. cbn [negb andb]. tauto.
  - destruct a; cbn [needs]; rewrite ?andb_true_r.
    + apply code_test. exact ht.
    + apply jumpdest_test. exact ht.
    + one 1%nat.
    + one 2%nat.
    + one 0%nat.
    + one 0%nat.
    + one 0%nat.
    + one 0%nat.
    + one 1%nat.
    + unfold CtRuleFacts.holds. cbn [check atom_at]. rewrite ok_true. assert (hz : (zlen (ct_stack s) <? 0) = false) by (pose proof (zlen_nonneg (ct_stack s)); lia). rewrite hz. cbn [negb andb]. tauto.
    + one 0%nat.
    + one 0%nat.
    + unfold CtRuleFacts.holds. cbn [check eval rbind compare atom_at]. rewrite ok_true. assert (hz : (zlen (ct_stack s) <? 0) = false) by (pose proof (zlen_nonneg (ct_stack s)); lia). rewrite hz.
      assert (hb : 0 <= GetBalance (ct_world s) (ct_self s)) by (apply Z.mod_pos_bound; lia).
      cbn [negb andb]. lia.
  - unfold CtRuleFacts.holds. cbn [check]. unfold p0, p1. pose proof (zlen_nonneg (ct_stack s)) as hz. rewrite eval_param by lia. change 0 with (Z.of_nat 0) at 1. rewrite <- param_at. cbn [rbind]. destruct (Z.ltb_spec (zlen (ct_stack s)) (Z.of_nat 0 + 1)) as [h|h].
    + assert (h2 : (zlen (ct_stack s) <? 2) = true) by lia. rewrite h2. cbn [negb andb]. split; discriminate.
    + etransitivity; [apply (on_one s 1)|]. apply iff_refl.
Qed.

(** ** Finitely many summaries decide *)
Definition atom_eqb (a b : atom) : bool :=
  match a, b with
  | ACode, ACode | AJumpdest, AJumpdest | AZero1, AZero1 | AZero2, AZero2 | ASlot, ASlot | ATransient, ATransient | AEmpty, AEmpty | AWarm0, AWarm0 | AWarm1, AWarm1
  | ADestructed, ADestructed | ARange, ARange | ABlob, ABlob | ANoFunds, ANoFunds => true
  | _, _ => false
  end.
Definition gas_bounds (t : test) : list Z := match t with TGasLt v | TGasGe v => [v] | _ => [] end.
Definition size_bounds (t : test) : list Z := match t with TSizeLt v | TSizeGe v => [v] | TSizeLe v => [v + 1] | TPos a | TNeg a => [needs a] | TStatus _ => [2] | _ => [] end.
Definition atoms_in (t : test) : list atom := match t with TPos AJumpdest | TNeg AJumpdest => [ACode; AJumpdest] | TPos a | TNeg a => [a] | _ => [] end.
Fixpoint distinct {A} (eqb : A -> A -> bool) (l : list A) : list A :=
  match l with [] => [] | a :: l => let r := distinct eqb l in if existsb (eqb a) r then r else a :: r end.
Fixpoint valuations (l : list atom) : list (list atom) := match l with [] => [[]] | a :: l => let r := valuations l in r ++ map (cons a) r end.
Definition value_of (l : list atom) (a : atom) : bool := existsb (atom_eqb a) l.
Definition statuses : list storage_status := [S_ASSIGNED; S_ADDED; S_DELETED; S_MODIFIED; S_DELETED_ADDED; S_MODIFIED_DELETED; S_DELETED_RESTORED; S_ADDED_DELETED; S_MODIFIED_RESTORED].
Definition uses_status (t : test) : bool := match t with TStatus _ => true | _ => false end.
Definition some_rule (ts : list (list test)) (A : summary) : bool := existsb (forallb (passes_test A)) ts.
(** what depends on revision and mode only *)
Definition early (A : summary) (t : test) : bool := match t with TOp _ | TRo _ | TRev _ _ => passes_test A t | _ => true end.
Definition decide (op : Z) (ts gs : list (list test)) : bool :=
  let all := concat (ts ++ gs) in
  let gases := distinct Z.eqb (flat_map gas_bounds all) in
  let sizes := filter (fun n => n <=? 1024) (distinct Z.eqb (flat_map size_bounds all)) in
  let vals := valuations (distinct atom_eqb (flat_map atoms_in all)) in
  let stats := if existsb uses_status all then statuses else [S_ASSIGNED] in
  forallb (fun r => forallb (fun ro =>
    let pick := filter (forallb (early (mkSum op r ro 0 0 S_ASSIGNED (fun _ => false)))) in
    let ts := pick ts in let gs := pick gs in
    forallb (fun g => forallb (fun n => forallb (fun st => forallb (fun v =>
      let A := mkSum op r ro g n st (value_of v) in xorb (some_rule ts A) (some_rule gs A)) vals) stats) (0 :: sizes)) (0 :: gases)) both) known.

Fixpoint tests_of (cs : list cond) : option (list test) :=
  match cs with [] => Some [] | c :: cs => match test_of c, tests_of cs with Some t, Some r => Some (t :: r) | _, _ => None end end.
Fixpoint all_tests (css : list (list cond)) : option (list (list test)) :=
  match css with [] => Some [] | cs :: css => match tests_of cs, all_tests css with Some t, Some r => Some (t :: r) | _, _ => None end end.
Definition rules_at (op : Z) : list (list cond) := filter (fun cs => sameOp (ruleOp cs) (Some op)) (map (@r_conditions) (instructionRules tx keccak)).
Definition minor : list storage_status := [S_ASSIGNED; S_DELETED_ADDED; S_MODIFIED_DELETED; S_DELETED_RESTORED; S_ADDED_DELETED; S_MODIFIED_RESTORED].
Definition gaps_at (op : Z) : list (list test) :=
  if op =? 0x5F then [[TRev 0 3; TGasLt 2]; [TRev 0 3; TSizeGe 1023]]
  else if op =? 0x56 then [[TSizeGe 1; TGasLt 8; TNeg ACode]; [TSizeGe 1; TGasLt 8; TNeg AJumpdest]]
  else if op =? 0x57 then [[TSizeGe 2; TGasLt 10; TNeg ACode]; [TSizeGe 2; TGasLt 10; TNeg AJumpdest]; [TSizeGe 2; TGasLt 10; TPos AZero1]]
  else if (0xA0 <=? op) && (op <=? 0xA4) then [[TRo true; TGasLt (375 + 375 * (op - 0xA0)); TSizeGe (2 + (op - 0xA0))]]
  else if op =? 0x55 then
    flat_map (fun c => [[TRo false; TGasGe 2300; TGasLt 2301; TStatus c]; [TRo false; TGasGe 2300; TRev 1 5; TNeg ASlot; TStatus c]; [TRo true; TGasGe 2300; TGasLt 2301; TStatus c]]) minor ++
    [[TRo true; TGasGe 2300; TGasLt 20000; TStatus S_ADDED];
     [TRo true; TGasGe 2300; TRev 0 0; TGasLt 5000; TStatus S_DELETED]; [TRo true; TGasGe 2300; TRev 1 5; TGasLt 2900; TStatus S_DELETED];
     [TRo true; TGasGe 2300; TRev 0 0; TGasLt 5000; TStatus S_MODIFIED]; [TRo true; TGasGe 2300; TRev 1 5; TGasLt 2900; TStatus S_MODIFIED]]
  else [].
Definition decide_op (op : Z) : bool := match all_tests (rules_at op) with Some ts => decide op ts (gaps_at op) | None => false end.

Definition clamp (bounds : list Z) (x : Z) : Z := fold_right (fun t m => if t <=? x then Z.max t m else m) 0 bounds.
Lemma clamp_le bs x : 0 <= x -> 0 <= clamp bs x <= x.
Proof. intros h. induction bs as [|t bs ih]; cbn [clamp fold_right]; [lia|]. fold (clamp bs x). destruct (Z.leb_spec t x); lia. Qed.
Lemma clamp_in bs x : In (clamp bs x) (0 :: bs).
Proof.
  induction bs as [|t bs ih]; cbn [clamp fold_right]; [left; reflexivity|]. fold (clamp bs x). destruct (t <=? x); [|destruct ih as [e|e]; [left; exact e|right; right; exact e]].
  destruct (Z.max_spec t (clamp bs x)) as [[_ e]|[_ e]]; rewrite e; [destruct ih as [k|k]; [left; exact k|right; right; exact k]|right; left; reflexivity].
Qed.
Lemma clamp_ltb bs x t : 0 <= x -> In t bs -> (clamp bs x <? t) = (x <? t).
Proof.
  intros h. induction bs as [|u bs ih]; intros hi; [destruct hi|]. pose proof (clamp_le (u :: bs) x h) as hl. destruct (Z.ltb_spec x t) as [hx|hx]; [apply Z.ltb_lt; lia|]. apply Z.ltb_ge. cbn [clamp fold_right]. fold (clamp bs x).
  destruct hi as [<- |hi]; [destruct (Z.leb_spec u x); lia|]. specialize (ih hi). assert (k : t <= clamp bs x) by (apply Z.ltb_ge; exact ih). destruct (u <=? x); lia.
Qed.
Lemma distinct_in {A} (eqb : A -> A -> bool) (l : list A) a : (forall x y, eqb x y = true <-> x = y) -> In a (distinct eqb l) <-> In a l.
Proof.
  intros he. induction l as [|b l ih]; cbn [distinct]; [tauto|]. destruct (existsb (eqb b) (distinct eqb l)) eqn:e; cbn [In]; [|tauto]. split; [tauto|]. intros [-> |h]; [|tauto].
  apply existsb_exists in e. destruct e as (x & hx & ex). apply he in ex. subst x. exact hx.
Qed.
Lemma atom_eqb_spec a b : atom_eqb a b = true <-> a = b.
Proof. destruct a, b; cbn; split; congruence. Qed.
Lemma valuation_of l (f : atom -> bool) : exists v, In v (valuations l) /\ forall a, In a l -> value_of v a = f a.
Proof.
  assert (X : exists v, In v (valuations l) /\ forall a, value_of v a = true <-> In a l /\ f a = true).
  { induction l as [|b l (v & h1 & h2)]; [exists []; split; [left; reflexivity|]; cbn; split; [discriminate|tauto]|]. cbn [valuations]. destruct (f b) eqn:eb.
    - exists (b :: v). split; [apply in_or_app; right; apply in_map, h1|]. intros a. cbn [value_of existsb In]. rewrite orb_true_iff, atom_eqb_spec. fold (value_of v a). rewrite h2. split; [intros [-> |k]; tauto|intros [[-> |k] k2]; tauto].
    - exists v. split; [apply in_or_app; left; exact h1|]. intros a. rewrite h2. cbn [In]. split; [tauto|]. intros [[-> |k] k2]; [congruence|tauto]. }
  destruct X as (v & h1 & h2). exists v. split; [exact h1|]. intros a ha. destruct (value_of v a) eqn:e; [symmetry; apply h2, e|]. destruct (f a) eqn:ef; [|reflexivity]. rewrite (proj2 (h2 a)) in e by tauto. discriminate.
Qed.
Definition alike (A B : summary) (t : test) : Prop :=
  a_op A = a_op B /\ a_rev A = a_rev B /\ a_ro A = a_ro B /\ (forall v, In v (gas_bounds t) -> (a_gas A <? v) = (a_gas B <? v)) /\ (forall v, In v (size_bounds t) -> (a_size A <? v) = (a_size B <? v)) /\
  (forall a, In a (atoms_in t) -> a_val A a = a_val B a) /\ (uses_status t = true -> a_status A = a_status B).
Lemma alike_test A B t : alike A B t -> passes_test A t = passes_test B t.
Proof.
  intros (h1 & h2 & h3 & h4 & h5 & h6 & h7).
  destruct t as [|v|b|v|v|v|v|v|lo hi|a|a|c]; cbn [passes_test gas_bounds size_bounds uses_status] in *; rewrite ?h1, ?h2, ?h3, ?h7 by reflexivity; try reflexivity;
    rewrite ?h4, ?h5 by (left; reflexivity); try reflexivity.
  - destruct a; cbn [atoms_in] in h6; rewrite !h6 by (cbn; tauto); reflexivity.
  - destruct a; cbn [atoms_in] in h6; rewrite !h6 by (cbn; tauto); reflexivity.
Qed.
Lemma forallb_eq {A} (f g : A -> bool) l : (forall x, In x l -> f x = g x) -> forallb f l = forallb g l.
Proof. induction l as [|a l ih]; intros h; [reflexivity|]. cbn [forallb]. rewrite (h a) by (left; reflexivity). rewrite ih; [reflexivity|]. intros x hx. apply h. right. exact hx. Qed.
Lemma existsb_eq {A} (f g : A -> bool) l : (forall x, In x l -> f x = g x) -> existsb f l = existsb g l.
Proof. induction l as [|a l ih]; intros h; [reflexivity|]. cbn [existsb]. rewrite (h a) by (left; reflexivity). rewrite ih; [reflexivity|]. intros x hx. apply h. right. exact hx. Qed.
Lemma alike_rules A B ts : (forall t, In t (concat ts) -> alike A B t) -> some_rule ts A = some_rule ts B.
Proof.
  intros h. unfold some_rule. apply existsb_eq. intros l hl. apply forallb_eq. intros t ht. apply alike_test, h. apply in_concat. exists l. tauto.
Qed.
Lemma early_rules A ts : some_rule (filter (forallb (early A)) ts) A = some_rule ts A.
Proof.
  unfold some_rule. induction ts as [|l ts ih]; [reflexivity|]. cbn [filter existsb]. destruct (forallb (early A) l) eqn:e; cbn [existsb]; rewrite ih; [reflexivity|].
  assert (k : forallb (passes_test A) l = false). { apply not_true_iff_false. intros k. apply not_true_iff_false in e. apply e. rewrite forallb_forall in k |- *. intros t ht. specialize (k t ht). destruct t; try reflexivity; exact k. }
  rewrite k. reflexivity.
Qed.
Lemma decide_sound op ts gs A : decide op ts gs = true -> a_op A = op -> 0 <= a_rev A <= 5 -> 0 <= a_gas A -> 0 <= a_size A <= 1024 -> xorb (some_rule ts A) (some_rule gs A) = true.
Proof.
  intros hd ho hr hg hn. unfold decide in hd. cbv zeta in hd.
  set (all := concat (ts ++ gs)) in *. set (gases := distinct Z.eqb (flat_map gas_bounds all)) in *. set (sizes := filter (fun n => n <=? 1024) (distinct Z.eqb (flat_map size_bounds all))) in *.
  set (atoms := distinct atom_eqb (flat_map atoms_in all)) in *.
  destruct (valuation_of atoms (a_val A)) as (v & hv & ev).
  set (stats := if existsb uses_status all then statuses else [S_ASSIGNED]) in *.
  assert (hst : exists st, In st stats /\ (existsb uses_status all = true -> st = a_status A)).
  { subst stats. destruct (existsb uses_status all); [exists (a_status A); split; [unfold statuses; destruct (a_status A); cbn; tauto|reflexivity]|exists S_ASSIGNED; split; [left; reflexivity|discriminate]]. }
  destruct hst as (st & hst & est).
  rewrite forallb_forall in hd. specialize (hd (a_rev A) ltac:(unfold known; cbn; lia)). rewrite forallb_forall in hd. specialize (hd (a_ro A) ltac:(unfold both; destruct (a_ro A); cbn; tauto)).
  rewrite forallb_forall in hd. specialize (hd (clamp gases (a_gas A)) (clamp_in _ _)). rewrite forallb_forall in hd. specialize (hd (clamp sizes (a_size A)) (clamp_in _ _)).
  rewrite forallb_forall in hd. specialize (hd st hst). rewrite forallb_forall in hd. specialize (hd v hv).
  set (B := mkSum op (a_rev A) (a_ro A) (clamp gases (a_gas A)) (clamp sizes (a_size A)) st (value_of v)) in *.
  assert (he : forall l, filter (forallb (early (mkSum op (a_rev A) (a_ro A) 0 0 S_ASSIGNED (fun _ => false)))) l = filter (forallb (early B)) l).
  { intros l. apply filter_ext. intros x. apply forallb_eq. intros t _. destruct t; reflexivity. }
  rewrite !he, !early_rules in hd.
  assert (hall : forall t, In t all -> alike A B t).
  { intros t ht. unfold alike. subst B. cbn [a_op a_rev a_ro a_gas a_size a_val a_status]. split; [exact ho|]. split; [reflexivity|]. split; [reflexivity|]. split; [|split; [|split]].
    - intros x hx. symmetry. apply clamp_ltb; [exact hg|]. apply distinct_in; [exact Z.eqb_eq|]. apply in_flat_map. eauto.
    - intros x hx. destruct (Z.leb_spec x 1024) as [hx'|hx'].
      + symmetry. apply clamp_ltb; [lia|]. apply filter_In. split; [|apply Z.leb_le; exact hx']. apply distinct_in; [exact Z.eqb_eq|]. apply in_flat_map. eauto.
      + pose proof (clamp_le sizes (a_size A) ltac:(lia)). rewrite !(proj2 (Z.ltb_lt _ _)) by lia. reflexivity.
    - intros a ha. symmetry. apply ev. apply distinct_in; [exact atom_eqb_spec|]. apply in_flat_map. eauto.
    - intros hu. symmetry. apply est. apply existsb_exists. eauto. }
  assert (e1 : some_rule ts A = some_rule ts B) by (apply alike_rules; intros t ht; apply hall; subst all; rewrite concat_app; apply in_or_app; left; exact ht).
  assert (e2 : some_rule gs A = some_rule gs B) by (apply alike_rules; intros t ht; apply hall; subst all; rewrite concat_app; apply in_or_app; right; exact ht).
  rewrite e1, e2. exact hd.
Qed.

(** ** Coverage *)
Lemma tests_conds cs ts : tests_of cs = Some ts -> cs = map cond_of ts.
Proof.
  revert ts. induction cs as [|c cs ih]; cbn [tests_of]; intros ts h; [injection h as <-; reflexivity|]. destruct (test_of c) as [t|] eqn:e; [|discriminate]. destruct (tests_of cs) as [r|]; [|discriminate]. injection h as <-.
  cbn [map]. rewrite <- (ih r eq_refl). rewrite <- (test_cond c t e). reflexivity.
Qed.
Lemma all_conds css ts : all_tests css = Some ts -> css = map (map cond_of) ts.
Proof.
  revert ts. induction css as [|c cs ih]; cbn [all_tests]; intros ts h; [injection h as <-; reflexivity|]. destruct (tests_of c) as [t|] eqn:e; [|discriminate]. destruct (all_tests cs) as [r|]; [|discriminate]. injection h as <-.
  cbn [map]. rewrite <- (ih r eq_refl). rewrite <- (tests_conds c t e). reflexivity.
Qed.
Lemma all_decided : forallb decide_op (upto 0 256) = true.
Proof. vm_compute. reflexivity. Qed.
Lemma covered_or_gap s : test_state s -> 0 <= ct_revision s <= 5 -> IsCodeAt (ct_code s) (ct_pc s) = true ->
  (exists r, In r (instructionRules tx keccak) /\ Forall (holds s) (r_conditions r)) <-> some_rule (gaps_at (code_at (ct_code s) (ct_pc s))) (summary_of s) = false.
Proof.
  intros ht hr hc. pose proof (tst_pc s ht) as hpc. set (op := code_at (ct_code s) (ct_pc s)) in *.
  assert (hb : is_byte op). { subst op. unfold code_at. apply data_at_byte. apply (ctk_code s (tst_ok s ht)). }
  pose proof all_decided as X. rewrite forallb_forall in X. specialize (X op). assert (hin : In op (upto 0 256)).
  { unfold upto. apply in_map_iff. exists (Z.to_nat op). unfold is_byte in hb. split; [lia|]. apply in_seq. lia. }
  specialize (X hin). unfold decide_op in X. destruct (all_tests (rules_at op)) as [ts|] eqn:et; [|discriminate]. apply all_conds in et.
  pose proof (zlen_nonneg (ct_stack s)) as hz. pose proof (ctk_height s (tst_ok s ht)). pose proof (ctk_gas s (tst_ok s ht)).
  pose proof (decide_sound op ts (gaps_at op) (summary_of s) X eq_refl hr ltac:(cbn; lia) ltac:(cbn; lia)) as Y.
  assert (hsome : some_rule ts (summary_of s) = true <-> exists cs, In cs (rules_at op) /\ Forall (holds s) cs).
  { unfold some_rule. rewrite existsb_exists, et. split.
    - intros (l & h1 & h2). exists (map cond_of l). split; [apply in_map, h1|]. apply Forall_forall. intros c hcc. apply in_map_iff in hcc. destruct hcc as (t & <- & htt). apply test_sound; [exact ht|exact hc|]. rewrite forallb_forall in h2. apply h2, htt.
    - intros (cs & h1 & h2). apply in_map_iff in h1. destruct h1 as (l & <- & h1). exists l. split; [exact h1|]. rewrite forallb_forall. intros t htt. apply test_sound; [exact ht|exact hc|]. rewrite Forall_forall in h2. apply h2. apply in_map, htt. }
  assert (hrule : (exists r, In r (instructionRules tx keccak) /\ Forall (holds s) (r_conditions r)) <-> exists cs, In cs (rules_at op) /\ Forall (holds s) cs).
  { split.
    - intros (r & h1 & h2). exists (r_conditions r). split; [|exact h2]. unfold rules_at. apply filter_In. split; [apply in_map, h1|].
      pose proof (instruction_keys tx keccak) as K. rewrite forallb_forall in K. specialize (K _ (in_map (@r_conditions) _ _ h1)). destruct (ruleOp (r_conditions r)) as [o|] eqn:eo; [|discriminate].
      apply ruleOp_in in eo. rewrite Forall_forall in h2. specialize (h2 _ eo). apply holds_op in h2; [|exact hpc]. cbn [sameOp]. apply Z.eqb_eq. symmetry. apply h2.
    - intros (cs & h1 & h2). unfold rules_at in h1. apply filter_In in h1. destruct h1 as [h1 _]. apply in_map_iff in h1. destruct h1 as (r & <- & h1). eauto. }
  rewrite hrule, <- hsome. destruct (some_rule ts (summary_of s)), (some_rule (gaps_at op) (summary_of s)); cbn in Y; split; congruence.
Qed.

(** ** The gaps *)
Lemma some_in ts A : some_rule ts A = true <-> exists l, In l ts /\ forallb (passes_test A) l = true.
Proof. unfold some_rule. apply existsb_exists. Qed.
Lemma two_args s d c st : rev (ct_stack s) = d :: c :: st -> arg s 0 = d /\ arg s 1 = c /\ 2 <= zlen (ct_stack s).
Proof. intros e. unfold arg. rewrite e. split; [reflexivity|]. split; [reflexivity|]. unfold zlen. rewrite <- rev_length, e. cbn [length]. lia. Qed.
Lemma one_arg s d st : rev (ct_stack s) = d :: st -> arg s 0 = d /\ 1 <= zlen (ct_stack s).
Proof. intros e. unfold arg. rewrite e. split; [reflexivity|]. unfold zlen. rewrite <- rev_length, e. cbn [length]. lia. Qed.
Lemma get_one s : 1 <= zlen (ct_stack s) -> exists st, rev (ct_stack s) = arg s 0 :: st.
Proof. unfold zlen, arg. rewrite <- rev_length. destruct (rev (ct_stack s)) as [|d st]; cbn [length nth]; [lia|eauto]. Qed.
Lemma get_two s : 2 <= zlen (ct_stack s) -> exists st, rev (ct_stack s) = arg s 0 :: arg s 1 :: st.
Proof. unfold zlen, arg. rewrite <- rev_length. destruct (rev (ct_stack s)) as [|d [|c st]]; cbn [length nth]; [lia|lia|eauto]. Qed.
Ltac summary := cbn [forallb passes_test summary_of a_op a_rev a_ro a_gas a_size a_status a_val atom_at needs].
Lemma status_is_eq a b : status_is a b = true <-> a = b.
Proof. destruct a, b; cbn; split; congruence. Qed.
Lemma contains_in l k : contains l k = true <-> In k l.
Proof. unfold contains. rewrite existsb_exists. split; [intros (x & h1 & h2); apply Z.eqb_eq in h2; subst; exact h1|intros h; exists k; split; [exact h|apply Z.eqb_refl]]. Qed.
Lemma minor_iff c : In c minor <-> ~ In c [S_ADDED; S_DELETED; S_MODIFIED].
Proof. unfold minor. destruct c; cbn [In]; split; intros h; try tauto; try (intros k; repeat (destruct k as [k|k]; try discriminate); contradiction); try (exfalso; repeat (destruct h as [h|h]; try discriminate); contradiction). Qed.

Lemma gap_iff s : test_state s -> 0 <= ct_revision s <= 5 -> some_rule (gaps_at (code_at (ct_code s) (ct_pc s))) (summary_of s) = true <-> gap s (code_at (ct_code s) (ct_pc s)).
Proof.
  intros ht hr. assert (hd : forall d st, rev (ct_stack s) = d :: st -> is_dest (ct_code s) d = IsCodeAt (ct_code s) d && (code_at (ct_code s) d =? 0x5B)).
  { intros d st e. destruct (one_arg s d st e) as [<- hz]. apply is_dest_code. apply (code_of_arg s ht hz). }
  generalize (code_at (ct_code s) (ct_pc s)) as op. intros op. rewrite some_in. split.
  - intros (l & hl & hp). unfold gaps_at in hl.
    destruct (Z.eqb_spec op 0x5F) as [-> |n1]; [|destruct (Z.eqb_spec op 0x56) as [-> |n2]; [|destruct (Z.eqb_spec op 0x57) as [-> |n3]; [|destruct ((0xA0 <=? op) && (op <=? 0xA4)) eqn:el; [|destruct (Z.eqb_spec op 0x55) as [-> |n4]; [|destruct hl]]]]].
    + destruct hl as [<- |[<- |[]]]; revert hp; summary; intros hp; apply gap_push0; lia.
    + assert (hz : 1 <= zlen (ct_stack s)) by (destruct hl as [<- |[<- |[]]]; revert hp; summary; lia). destruct (get_one s hz) as (st & e).
      apply (gap_jump s (arg s 0) st e); [destruct hl as [<- |[<- |[]]]; revert hp; summary; lia|]. rewrite (hd _ _ e).
      destruct hl as [<- |[<- |[]]]; revert hp; summary; destruct (IsCodeAt (ct_code s) (arg s 0)), (code_at (ct_code s) (arg s 0) =? 0x5B); cbn [negb andb]; rewrite ?andb_false_r; congruence.
    + assert (hz : 2 <= zlen (ct_stack s)) by (destruct hl as [<- |[<- |[<- |[]]]]; revert hp; summary; lia). destruct (get_two s hz) as (st & e).
      apply (gap_jumpi s (arg s 0) (arg s 1) st e); [destruct hl as [<- |[<- |[<- |[]]]]; revert hp; summary; lia|]. rewrite (hd _ _ e).
      destruct hl as [<- |[<- |[<- |[]]]]; revert hp; summary; [left|left|right; lia]; revert hp; destruct (IsCodeAt (ct_code s) (arg s 0)), (code_at (ct_code s) (arg s 0) =? 0x5B); cbn [negb andb]; rewrite ?andb_false_r; congruence.
    + destruct hl as [<- |[]]. revert hp. summary. intros hp. replace op with (0xA0 + (op - 0xA0)) by lia. apply gap_log; [lia| |lia|lia]. destruct (ct_readonly s); [reflexivity|discriminate].
    + apply in_app_or in hl. assert (hz : 2 <= zlen (ct_stack s)).
      { destruct hl as [hl|hl]; [apply in_flat_map in hl; destruct hl as (c & _ & hl); destruct hl as [<- |[<- |[<- |[]]]]|destruct hl as [<- |[<- |[<- |[<- |[<- |[]]]]]]]; revert hp; summary; lia. }
      destruct (get_two s hz) as (st & e). destruct hl as [hl|hl].
      * apply in_flat_map in hl. destruct hl as (c & hc & hl). apply minor_iff in hc.
        assert (ec : status_at s = c) by (symmetry; apply status_is_eq; destruct hl as [<- |[<- |[<- |[]]]]; revert hp; summary; destruct (status_is c (status_at s)); rewrite ?andb_false_r; congruence).
        assert (hg : 2300 <= ct_gas s) by (destruct hl as [<- |[<- |[<- |[]]]]; revert hp; summary; lia).
        destruct hl as [<- |[<- |[<- |[]]]]; revert hp; summary; destruct (ct_readonly s) eqn:ero; cbn [Bool.eqb andb]; try discriminate; intros hp.
        -- apply (gap_sstore s _ _ st e ero hg); [fold (status_at s); rewrite ec; exact hc|]. left. lia.
        -- apply (gap_sstore s _ _ st e ero hg); [fold (status_at s); rewrite ec; exact hc|]. right. split; [lia|]. rewrite <- contains_in. fold (IsWarm (ct_world s) (arg s 0)). destruct (IsWarm (ct_world s) (arg s 0)); [|intros k; discriminate k]. cbn [negb] in hp. rewrite !andb_false_r in hp. discriminate.
        -- apply (gap_static s _ _ st e ero hg). fold (status_at s). rewrite ec. assert (hb : ct_gas s < 2301) by lia. clear - hc hb. destruct c; try exact hb; exfalso; apply hc; cbn; tauto.
      * assert (hg : 2300 <= ct_gas s) by (destruct hl as [<- |[<- |[<- |[<- |[<- |[]]]]]]; revert hp; summary; lia).
        assert (ero : ct_readonly s = true) by (destruct hl as [<- |[<- |[<- |[<- |[<- |[]]]]]]; revert hp; summary; destruct (ct_readonly s); [reflexivity|intros k; discriminate k|reflexivity|intros k; discriminate k|reflexivity|intros k; discriminate k|reflexivity|intros k; discriminate k|reflexivity|intros k; discriminate k]).
        apply (gap_static s _ _ st e ero hg). fold (status_at s).
        destruct hl as [<- |[<- |[<- |[<- |[<- |[]]]]]]; revert hp; summary; destruct (status_at s); cbn [status_is]; rewrite ?andb_false_r; try discriminate; intros hp; destruct (Z.eqb_spec (ct_revision s) 0); lia.
  - intros hg. destruct hg as [h1 h2|d st e h1 h2|d c st e h1 h2|n h1 h2 h3 h4|k v st e h1 h2 h3 h4|k v st e h1 h2 h3].
    + destruct h2 as [h2|h2]; [exists [TRev 0 3; TGasLt 2]|exists [TRev 0 3; TSizeGe 1023]]; (split; [cbn; tauto|]); summary; lia.
    + destruct (one_arg s d st e) as [e0 hz]. rewrite (hd d st e) in h2. destruct (IsCodeAt (ct_code s) d) eqn:ec.
      * exists [TSizeGe 1; TGasLt 8; TNeg AJumpdest]. split; [cbn; tauto|]. summary. rewrite e0, ec. cbn [andb] in h2. rewrite h2. cbn [negb]. lia.
      * exists [TSizeGe 1; TGasLt 8; TNeg ACode]. split; [cbn; tauto|]. summary. rewrite e0, ec. cbn [negb]. lia.
    + destruct (two_args s d c st e) as (e0 & e1 & hz). destruct h2 as [h2|h2].
      * rewrite (hd d (c :: st) e) in h2. destruct (IsCodeAt (ct_code s) d) eqn:ec.
        -- exists [TSizeGe 2; TGasLt 10; TNeg AJumpdest]. split; [cbn; tauto|]. summary. rewrite e0, ec. cbn [andb] in h2. rewrite h2. cbn [negb]. lia.
        -- exists [TSizeGe 2; TGasLt 10; TNeg ACode]. split; [cbn; tauto|]. summary. rewrite e0, ec. cbn [negb]. lia.
      * exists [TSizeGe 2; TGasLt 10; TPos AZero1]. split; [cbn; tauto|]. summary. rewrite e1. lia.
    + exists [TRo true; TGasLt (375 + 375 * n); TSizeGe (2 + n)]. split.
      * unfold gaps_at. replace (0xA0 + n =? 0x5F) with false by lia. replace (0xA0 + n =? 0x56) with false by lia. replace (0xA0 + n =? 0x57) with false by lia. replace ((0xA0 <=? 0xA0 + n) && (0xA0 + n <=? 0xA4)) with true by lia.
        left. replace (0xA0 + n - 0xA0) with n by lia. reflexivity.
      * summary. rewrite h2. cbn [Bool.eqb]. lia.
    + destruct (two_args s k v st e) as (e0 & e1 & hz). apply minor_iff in h3. rewrite <- e0, <- e1 in h3. fold (status_at s) in h3.
      assert (hc : status_is (status_at s) (status_at s) = true) by (apply status_is_eq; reflexivity).
      destruct h4 as [h4|[h4 h5]].
      * exists [TRo false; TGasGe 2300; TGasLt 2301; TStatus (status_at s)]. split; [apply in_or_app; left; apply in_flat_map; exists (status_at s); split; [exact h3|left; reflexivity]|]. summary. rewrite h1, hc. cbn [Bool.eqb]. lia.
      * exists [TRo false; TGasGe 2300; TRev 1 5; TNeg ASlot; TStatus (status_at s)]. split; [apply in_or_app; left; apply in_flat_map; exists (status_at s); split; [exact h3|right; left; reflexivity]|].
        summary. rewrite h1, hc. assert (ew : IsWarm (ct_world s) (arg s 0) = false) by (apply not_true_iff_false; unfold IsWarm; rewrite contains_in, e0; exact h5). rewrite ew. cbn [Bool.eqb negb]. lia.
    + destruct (two_args s k v st e) as (e0 & e1 & hz). rewrite <- e0, <- e1 in h3. fold (status_at s) in h3.
      assert (hc : status_is (status_at s) (status_at s) = true) by (apply status_is_eq; reflexivity).
      assert (hm : In (status_at s) minor -> ct_gas s < 2301 -> exists l, In l (gaps_at 0x55) /\ forallb (passes_test (summary_of s)) l = true).
      { intros hi hb. exists [TRo true; TGasGe 2300; TGasLt 2301; TStatus (status_at s)]. split; [apply in_or_app; left; apply in_flat_map; exists (status_at s); split; [exact hi|right; right; left; reflexivity]|]. summary. rewrite h1, hc. cbn [Bool.eqb]. lia. }
      destruct (status_at s) eqn:es; try (apply hm; [cbn; tauto|lia]).
      * exists [TRo true; TGasGe 2300; TGasLt 20000; TStatus S_ADDED]. split; [apply in_or_app; right; cbn; tauto|]. summary. rewrite h1, es. cbn [Bool.eqb status_is]. lia.
      * destruct (Z.eqb_spec (ct_revision s) 0).
        -- exists [TRo true; TGasGe 2300; TRev 0 0; TGasLt 5000; TStatus S_DELETED]. split; [apply in_or_app; right; cbn; tauto|]. summary. rewrite h1, es. cbn [Bool.eqb status_is]. lia.
        -- exists [TRo true; TGasGe 2300; TRev 1 5; TGasLt 2900; TStatus S_DELETED]. split; [apply in_or_app; right; cbn; tauto|]. summary. rewrite h1, es. cbn [Bool.eqb status_is]. lia.
      * destruct (Z.eqb_spec (ct_revision s) 0).
        -- exists [TRo true; TGasGe 2300; TRev 0 0; TGasLt 5000; TStatus S_MODIFIED]. split; [apply in_or_app; right; cbn; tauto|]. summary. rewrite h1, es. cbn [Bool.eqb status_is]. lia.
        -- exists [TRo true; TGasGe 2300; TRev 1 5; TGasLt 2900; TStatus S_MODIFIED]. split; [apply in_or_app; right; cbn; tauto|]. summary. rewrite h1, es. cbn [Bool.eqb status_is]. lia.
Qed.
Lemma rules_cover s : test_state s -> 0 <= ct_revision s <= 5 -> ~ covered (ct_code s) (ct_pc s) ->
  exists rs, GetRulesFor tx keccak s = Ok rs /\ (rs = [] <-> gap s (code_at (ct_code s) (ct_pc s))).
Proof.
  intros ht hr hc. pose proof (tst_pc s ht) as hpc. apply code_iff in hc; [|lia]. destruct (lookup tx keccak s (sane_of s ht) ltac:(lia)) as (rs & e & h). exists rs. split; [exact e|].
  rewrite <- gap_iff by assumption. pose proof (covered_or_gap s ht hr hc) as X. destruct (some_rule (gaps_at (code_at (ct_code s) (ct_pc s))) (summary_of s)) eqn:eg.
  - split; [reflexivity|]. intros _. destruct rs as [|r rs]; [reflexivity|]. exfalso. destruct (proj1 (h r) (or_introl eq_refl)) as [hin ha]. apply applies_holds in ha. unfold getAllRules in hin. apply in_app_or in hin.
    destruct hin as [hin|hin]; [exact (idle_not tx s r ht hr hc hin ha)|]. discriminate (proj1 X (ex_intro _ r (conj hin ha))).
  - split; [|discriminate]. intros ->. destruct (proj2 X eq_refl) as (r & h1 & h2). destruct (in_nil (a := r)). apply h. split; [apply in_or_app; right; exact h1|]. apply applies_holds, h2.
Qed.

(** ** States without rules fail, but for SSTORE *)
Lemma frame_gas (s : state) : f_gas (frame_of s) = ct_gas s. Proof. reflexivity. Qed.
Lemma frame_size (s : state) : zlen (f_stack (frame_of s)) = zlen (ct_stack s). Proof. unfold zlen. cbn [frame_of f_stack]. rewrite rev_length. reflexivity. Qed.
Variable hash : list Z -> Z.
Lemma gap_fails s rv op : test_state s -> In (ct_revision s, rv) revisions -> code_at (ct_code s) (ct_pc s) = op -> gap s op -> (op = 0x55 -> ct_readonly s = true \/ ct_gas s = 2300) ->
  exists e f, run_for (go_host (ct_rc tx) tx) (answers ct_Call) keccak (message_of (ToVmParameters hash s)) rv (ct_code s) (is_dest (ct_code s)) 1 (frame_of s) = Fail e f.
Proof.
  intros ht hr hop hg hs. rewrite run_one. unfold Step, step. change (f_pc (frame_of s)) with (ct_pc s). rewrite hop.
  assert (gen : forall i, SpecEvm.instruction op = Some i -> rev_ge rv (in_since i) = false \/ (in_stateful i = true /\ ct_readonly s = true) \/ ct_gas s < in_fee i ->
    exists e f, match SpecEvm.instruction op with
    | None => if f_gas (frame_of s) <? 0 then Fail OutOfGas (frame_of s) else Fail InvalidInstruction (frame_of s)
    | Some i => let h := zlen (f_stack (frame_of s)) in
      if negb (rev_ge rv (in_since i)) then Fail UndefinedInstruction (frame_of s)
      else if in_stateful i && static (message_of (ToVmParameters hash s)) then Fail StaticViolation (frame_of s)
      else if h <? in_args i then Fail StackUnderflow (frame_of s)
      else if 1024 <? h - in_args i + in_results i then Fail StackOverflow (frame_of s)
      else charge (in_fee i) (frame_of s) (exec (go_host (ct_rc tx) tx) (answers ct_Call) keccak (message_of (ToVmParameters hash s)) rv (ct_code s) (is_dest (ct_code s)) op)
    end = Fail e f).
  { intros i -> h. cbv zeta. rewrite (static_of hash s). destruct (rev_ge rv (in_since i)) eqn:e1; cbn [negb]; [|eauto]. destruct h as [h|[[h1 h2]|h]]; [discriminate|rewrite h1, h2; cbn [andb]; eauto|].
    destruct (in_stateful i && ct_readonly s); [eauto|]. destruct (zlen (f_stack (frame_of s)) <? in_args i); [eauto|]. destruct (1024 <? zlen (f_stack (frame_of s)) - in_args i + in_results i); [eauto|].
    unfold charge. rewrite frame_gas. rewrite (proj2 (Z.ltb_lt _ _) h). eauto. }
  destruct hg as [h1 h2|d st e h1 h2|d c st e h1 h2|n h1 h2 h3 h4|k v st e h1 h2 h3 h4|k v st e h1 h2 h3].
  - apply (gen (mkInstr 0 1 2 Shanghai false) eq_refl). left. revert hr h1. unfold revisions. cbn [In in_since]. intros hr h1. destruct hr as [hr|[hr|[hr|[hr|[hr|[hr|[]]]]]]]; injection hr as e1 e2; subst rv; rewrite <- e1 in h1; try reflexivity; exfalso; clear - h1; lia.
  - apply (gen (mkInstr 1 0 8 Istanbul false) eq_refl). right. right. exact h1.
  - apply (gen (mkInstr 2 0 10 Istanbul false) eq_refl). right. right. exact h1.
  - assert (hn : n = 0 \/ n = 1 \/ n = 2 \/ n = 3 \/ n = 4) by lia. apply (gen (mkInstr (n + 2) 0 (375 * (n + 1)) Istanbul true)); [destruct hn as [-> |[-> |[-> |[-> | ->]]]]; reflexivity|]. right. left. split; [reflexivity|exact h2].
  - destruct (hs eq_refl) as [hx|hx]; [congruence|]. destruct (two_args s k v st e) as (_ & _ & hz). change (SpecEvm.instruction 0x55) with (Some (mkInstr 2 0 0 Istanbul true)). cbn [in_since in_stateful in_args in_results in_fee]. rewrite (static_of hash s), h1.
    replace (rev_ge rv Istanbul) with true by (destruct rv; reflexivity). cbn [negb andb]. rewrite frame_size. pose proof (ctk_height s (tst_ok s ht)).
    replace (zlen (ct_stack s) <? 2) with false by lia. replace (1024 <? zlen (ct_stack s) - 2 + 0) with false by lia. unfold charge. rewrite frame_gas. replace (ct_gas s <? 0) with false by lia.
    change (exec (go_host (ct_rc tx) tx) (answers ct_Call) keccak (message_of (ToVmParameters hash s)) rv (ct_code s) (is_dest (ct_code s)) 0x55) with (i_sstore (go_host (ct_rc tx) tx) (message_of (ToVmParameters hash s)) rv).
    unfold i_sstore. cbn [with_gas frame_of f_stack f_gas]. rewrite e. replace (ct_gas s - 0 <=? 2300) with true by lia. eauto.
  - apply (gen (mkInstr 2 0 0 Istanbul true) eq_refl). right. left. split; [reflexivity|exact h1].
Qed.
End Cover.
