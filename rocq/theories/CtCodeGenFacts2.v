(** Proofs about the generator of codes: no panics, completeness for known positions. *)
From Verif Require Import Base SpecEvm SpecRules ArithFacts MemFacts JumpFacts CtSolve CtGen SpecGen CtStorageFacts CtCodeGen SpecCode CtCodeGenFacts.
From Coq Require Import Permutation.

Lemma conv_int z : - 2 ^ 63 <= z < 2 ^ 63 -> conv tInt z = z.
Proof. intros h. change (conv tInt z) with ((z - - 2 ^ 63) mod (2 * 2 ^ 63) + - 2 ^ 63). rewrite Z.mod_small; lia. Qed.
Definition fine {A} (m : outcome A) : Prop := match m with Generated _ | ErrUnsatisfiable => True | ErrUnboundVariable | Panics | Running => False end.
Lemma fine_bind {A B} (m : outcome A) (k : A -> outcome B) : fine m -> (forall a, m = Generated a -> fine (k a)) -> fine (gbind m k).
Proof. destruct m; cbn; auto. Qed.

Section Fine.
Variable rnd : nat -> Z.
Variable size : Z.
Hypothesis hsize : 0 < size.

Lemma draw_fine n s : 0 < n -> fine (draw_below rnd n s).
Proof. intros h. unfold draw_below. destruct (Z.leb_spec n 0); [lia|exact Logic.I]. Qed.
Lemma search_fine good : forall k pos start, 0 <= pos < size -> 0 <= start < size ->
  size - (if start <=? pos then pos - start else pos - start + size) <= Z.of_nat k -> fine (search size good k pos start).
Proof.
  induction k as [|k IH]; intros pos start h1 h2 h3; cbn [search]; [destruct (Z.leb_spec start pos); lia|].
  destruct (good pos); [exact Logic.I|]. rewrite Z.geb_leb. destruct (Z.leb_spec size (pos + 1)).
  - destruct (Z.eqb_spec 0 start); [exact Logic.I|]. apply IH; [lia|lia|]. destruct (Z.leb_spec start 0), (Z.leb_spec start pos); lia.
  - destruct (Z.eqb_spec (pos + 1) start); [exact Logic.I|]. apply IH; [lia|lia|]. destruct (Z.leb_spec start (pos + 1)), (Z.leb_spec start pos); lia.
Qed.
Lemma find_fine good s : fine (find_position rnd size good s).
Proof.
  unfold find_position. apply fine_bind; [apply draw_fine; exact hsize|]. intros [start s1] e. apply draw_spec in e. destruct e as [e _].
  apply fine_bind; [|intros p _; exact Logic.I]. apply search_fine; [exact e|exact e|]. rewrite Z.leb_refl. lia.
Qed.
Lemma solveVarOps_fine l : forall bound s, fine (solveVarOps rnd size l bound s).
Proof.
  induction l as [|[v op] l IH]; intros bound s; cbn [solveVarOps]; [exact Logic.I|]. destruct (bound v); [destruct (_ =? op); [apply IH|exact Logic.I]|].
  apply fine_bind; [apply find_fine|]. intros [pos s1] _. apply IH.
Qed.
Lemma solveIsCode_fine l : forall s, fine (solveIsCode rnd size l s).
Proof.
  induction l as [|v l IH]; intros s; cbn [solveIsCode]; [exact Logic.I|].
  destruct (match v_asg s v with Some pos => if size <=? pos then Some false else if used_code (v_used s) pos then Some true else None | None => None end) as [[|]|]; [apply IH|exact Logic.I|].
  apply fine_bind; [apply find_fine|]. intros [pos s1] _. apply fine_bind; [|intros; apply IH]. destruct (unused (v_used s1) pos); [|exact Logic.I].
  apply fine_bind; [apply draw_fine; reflexivity|]. intros [i s2] _. exact Logic.I.
Qed.
Lemma solveIsData_fine l : forall s, fine (solveIsData rnd size l s).
Proof.
  induction l as [|v l IH]; intros s; cbn [solveIsData]; [exact Logic.I|].
  destruct (match v_asg s v with Some pos => (pos <? size) && used_code (v_used s) pos | None => false end); [exact Logic.I|].
  apply fine_bind; [apply find_fine|]. intros [pos s1] e. apply find_spec in e. destruct e as (hf & hp & q1 & q2 & q3).
  destruct (unused (v_used s1) pos) eqn:eu; [|apply IH]. rewrite q2 in *.
  assert (hl : 2 <= largestFit size (v_used s) pos).
  { rewrite eu in hf. unfold unused, used_data in *. destruct (v_used s pos); [|discriminate|discriminate]. cbn [orb andb] in hf. rewrite Z.geb_leb, Z.leb_le in hf. exact hf. }
  apply fine_bind; [apply draw_fine; lia|]. intros [i s2] e. apply draw_spec in e. destruct e as [e _]. apply fine_bind; [apply draw_fine; lia|]. intros [j s3] _. apply IH.
Qed.
Lemma build_fine fill : forall k i ops, ops <> [] -> (Z.to_nat (size - i) < k)%nat -> fine (build fill size k i ops).
Proof.
  induction k as [|k IH]; intros i ops ho hk; cbn [build].
  - lia.
  - destruct ops as [|[next fixed] ops]; [congruence|]. rewrite Z.geb_leb. destruct (Z.leb_spec size i); [exact Logic.I|]. destruct (next <? i); [exact Logic.I|].
    destruct (if i =? next then (fixed, ops) else (random_op fill i next, (next, fixed) :: ops)) as [op rest]. destruct rest as [|r rest]; [exact Logic.I|].
    unfold is_push. destruct ((0x60 <=? op) && (op <=? 0x7F)) eqn:ep; apply fine_bind; try (intros; exact Logic.I); apply IH; try discriminate; [|lia].
    rewrite andb_true_iff, !Z.leb_le in ep. lia.
Qed.
End Fine.

(** *** Sizes *)
Lemma distinct_len l : 0 <= zlen (distinct l) <= zlen l.
Proof. induction l as [|x l IH]; cbn [distinct]; [unfold zlen; cbn; lia|]. destruct (existsb _ l); rewrite ?zlen_cons in *; lia. Qed.
Lemma distinct_pos l : l <> [] -> 1 <= zlen (distinct l).
Proof.
  induction l as [|x l IH]; [congruence|]. intros _. cbn [distinct]. destruct (existsb _ l) eqn:e; [|rewrite zlen_cons; pose proof (distinct_len l); lia].
  apply IH. intros ->. discriminate.
Qed.
Lemma distinct_in l x : In x (distinct l) -> In x l.
Proof. induction l as [|y l IH]; cbn; [auto|]. destruct (existsb _ l); cbn; tauto. Qed.
Lemma distinct_nodup l : NoDup (distinct l).
Proof.
  induction l as [|y l IH]; cbn; [constructor|]. destruct (existsb (Z.eqb y) l) eqn:e; [exact IH|]. constructor; [|exact IH]. intros h. apply distinct_in in h.
  assert (k : existsb (Z.eqb y) l = true) by (apply existsb_exists; exists y; rewrite Z.eqb_refl; auto). congruence.
Qed.
Lemma distinct_le l code : incl l code -> zlen (distinct l) <= zlen code.
Proof. intros h. pose proof (NoDup_incl_length (distinct_nodup l) (fun x k => h x (distinct_in l x k))). unfold zlen. lia. Qed.
Lemma fold_pos L (l : list (Z * Z)) : forall m, 0 <= L < 2 ^ 62 + 2 -> 0 <= m <= L -> (forall p o, In (p, o) l -> - 2 ^ 63 <= p < L) -> 0 <= fold_left (fun m c => if fst c >? m then conv tInt (fst c + 1) else m) l m <= L.
Proof.
  induction l as [|[p o] l IH]; intros m h0 hm h; cbn [fold_left]; [lia|]. pose proof (h p o (or_introl eq_refl)) as hp. apply IH; [lia| |intros p' o' k; apply (h p' o'); right; exact k].
  cbn [fst]. rewrite Z.gtb_ltb. destruct (Z.ltb_spec m p); [|lia]. rewrite conv_int by lia. lia.
Qed.
Lemma fold_vars (l : list (Z * Z)) : forall m, 0 <= m -> m + 40 * zlen l < 2 ^ 63 -> m <= fold_left (fun m c => conv tInt (m + (if is_push (snd c) then 1 + (snd c - 0x60 + 1) else 1))) l m <= m + 40 * zlen l.
Proof.
  induction l as [|[p o] l IH]; intros m hm h; cbn [fold_left]; [cbn; lia|]. rewrite zlen_cons in h. cbn [snd]. pose proof (zlen_nonneg l).
  assert (k : 0 <= (if is_push o then 1 + (o - 0x60 + 1) else 1) <= 40) by (unfold is_push; destruct ((0x60 <=? o) && (o <=? 0x7F)) eqn:e; [rewrite andb_true_iff, !Z.leb_le in e|]; lia).
  set (w := if is_push o then 1 + (o - 0x60 + 1) else 1) in *. rewrite conv_int by lia. specialize (IH (m + w) ltac:(lia) ltac:(lia)). rewrite zlen_cons. lia.
Qed.
Lemma min_size_bounds ops vars isCodes isDatas L : 0 <= L < 2 ^ 62 + 2 -> (forall p o, In (p, o) ops -> - 2 ^ 63 <= p < L) -> zlen vars < 2 ^ 50 -> zlen ops < 2 ^ 50 ->
  let m := min_size ops vars isCodes isDatas in
  0 <= m < 2 ^ 62 + 2 ^ 57 /\ (1 <= m \/ ops = [] /\ vars = [] /\ isCodes = [] /\ isDatas = []) /\
  (vars = [] -> isCodes = [] -> isDatas = [] -> zlen (distinct (map snd ops)) <= L -> m <= L).
Proof.
  intros hL h hv ho m. subst m. unfold min_size. pose proof (fold_pos L ops 0 hL ltac:(lia) h) as f1. set (m1 := fold_left _ ops 0) in *.
  pose proof (zlen_nonneg vars). pose proof (zlen_nonneg ops). pose proof (zlen_nonneg isCodes). pose proof (zlen_nonneg isDatas).
  pose proof (fold_vars vars m1 ltac:(lia) ltac:(lia)) as f2. set (m2 := fold_left _ vars m1) in *.
  pose proof (distinct_len (map snd vars ++ map snd ops)) as f3. assert (el : zlen (map snd vars ++ map snd ops) = zlen vars + zlen ops) by (rewrite zlen_app; unfold zlen; rewrite !map_length; reflexivity). rewrite el in f3.
  assert (f4 : ops = [] /\ vars = [] \/ 1 <= zlen (distinct (map snd vars ++ map snd ops))).
  { destruct ops as [|c ops']; [destruct vars as [|c vars']; [left; auto|]|]; right; apply distinct_pos; [discriminate|]. intros k. apply app_eq_nil in k. destruct k as [_ k]. discriminate k. }
  set (d := zlen (distinct (map snd vars ++ map snd ops))) in *.
  assert (f5 : isCodes = [] \/ 0 < zlen isCodes) by (destruct isCodes; [left; reflexivity|right; rewrite zlen_cons in *; pose proof (zlen_nonneg isCodes); lia]).
  assert (f6 : isDatas = [] \/ 0 < zlen isDatas) by (destruct isDatas; [left; reflexivity|right; rewrite zlen_cons in *; pose proof (zlen_nonneg isDatas); lia]).
  cbv zeta. split; [|split].
  - destruct ((Z.max m2 d =? 0) && (zlen isCodes >? 0)), (zlen isDatas >? 0); cbn [andb]; try (destruct (_ <? 2)); lia.
  - destruct f6 as [-> |f6].
    + change (zlen [] >? 0) with false. cbn [andb]. destruct (Z.eqb_spec (Z.max m2 d) 0) as [e1|e1]; cbn [andb]; [|left; lia].
      destruct f5 as [-> |f5]; [|left; rewrite Z.gtb_ltb; destruct (Z.ltb_spec 0 (zlen isCodes)); lia].
      destruct f4 as [[-> ->]|f4]; [right; auto|left; lia].
    + left. rewrite (Z.gtb_ltb (zlen isDatas)). destruct (Z.ltb_spec 0 (zlen isDatas)); [|lia]. cbn [andb]. destruct (Z.ltb_spec (if (Z.max m2 d =? 0) && (zlen isCodes >? 0) then 1 else Z.max m2 d) 2); lia.
  - intros -> -> -> hd. change (zlen [] >? 0) with false. rewrite andb_false_r. cbn [andb]. subst d m2. cbn [map app fold_left] in *. lia.
Qed.
Lemma code_size_eq e m : 0 <= e < 2 ^ 31 -> 0 <= m < 2 ^ 62 + 2 ^ 57 -> code_size e m = Z.min (e + m) 24576.
Proof. intros h1 h2. unfold code_size, MaxCodeSize. rewrite conv_int by lia. rewrite Z.gtb_ltb. destruct (Z.ltb_spec 24576 (e + m)); lia. Qed.

Lemma last_in {A} (l : list A) d : l <> [] -> In (last l d) l.
Proof. induction l as [|a l IH]; [congruence|]. intros _. destruct l as [|b l]; [left; reflexivity|]. right. apply IH. discriminate. Qed.

Lemma bind_lens a l : forall ops vars ops' vars', bind_ops a l ops vars = Some (ops', vars') -> zlen ops' + zlen vars' = zlen ops + zlen vars + zlen l.
Proof.
  induction l as [|[x op] l IH]; intros ops vars ops' vars' e; cbn [bind_ops] in e; [injection e as <- <-; change (zlen []) with 0; lia|]. rewrite zlen_cons.
  destruct (a x) as [v|]; [destruct (_ || _); [discriminate|]|]; apply IH in e; rewrite zlen_app, zlen_cons in e; change (zlen []) with 0 in e; lia.
Qed.
Lemma bind_bound a l : forall ops vars ops' vars', bind_ops a l ops vars = Some (ops', vars') -> forall p o, In (p, o) ops' -> In (p, o) ops \/ p <= 24576.
Proof.
  induction l as [|[x op] l IH]; intros ops vars ops' vars' e p o h; cbn [bind_ops] in e; [injection e as <- <-; auto|].
  destruct (a x) as [v|]; [destruct (_ || _) eqn:eb; [discriminate|]|]; apply (IH _ _ _ _ e) in h; [|exact h].
  apply orb_false_iff in eb. destruct eb as [_ eb]. unfold MaxCodeSize in eb. rewrite Z.gtb_ltb, Z.ltb_ge in eb. destruct h as [h|h]; [|auto]. apply in_app_iff in h. destruct h as [h|[h|[]]]; [auto|]. injection h as <- <-. auto.
Qed.
Lemma flat_len {A B} (f : A -> list B) l : (forall a, zlen (f a) <= 1) -> zlen (flat_map f l) <= zlen l.
Proof. intros h. induction l as [|a l IH]; cbn [flat_map]; [reflexivity|]. rewrite zlen_app, zlen_cons. specialize (h a). lia. Qed.

Definition position_ok (q : code_request) : Prop := match q with OpAt p _ => - 2 ^ 63 <= p < 2 ^ 62 | _ => True end.
Lemma code_generate_fine rnd fill e a qs : Forall position_ok qs -> zlen qs < 2 ^ 49 -> (forall x v, a x = Some v -> 0 <= v) -> 0 <= e < 2 ^ 31 ->
  fine (CodeGenerate rnd fill e a (code_generator qs)).
Proof.
  intros hq hn ha he. rewrite generator_fields. unfold CodeGenerate. cbn [varOps constOps varIsCode varIsData].
  destruct (bind_ops a (flat_map var_of qs) (flat_map const_of qs) []) as [[ops vars]|] eqn:eb; [|exact Logic.I].
  assert (hp : forall p o, In (p, o) ops -> - 2 ^ 63 <= p < 2 ^ 62 + 1).
  { intros p o h. pose proof (bind_bound _ _ _ _ _ _ eb p o h) as k. pose proof (bind_ops_spec _ _ _ _ _ _ eb) as [b1 _]. apply b1 in h. rewrite Forall_forall in hq. destruct h as [h|(x & h1 & h2)].
    - apply const_in in h. apply hq in h. cbn in h. lia.
    - pose proof (ha x p h2). destruct k as [k|k]; [apply const_in in k; apply hq in k; cbn in k|]; lia. }
  pose proof (bind_lens _ _ _ _ _ _ eb) as hl. pose proof (flat_len const_of qs ltac:(intros []; cbn; lia)). pose proof (flat_len var_of qs ltac:(intros []; cbn; lia)).
  change (zlen []) with 0 in hl. pose proof (zlen_nonneg ops). pose proof (zlen_nonneg vars).
  destruct (min_size_bounds ops vars (flat_map code_of qs) (flat_map data_of qs) (2 ^ 62 + 1) ltac:(lia) hp ltac:(lia) ltac:(lia)) as (m1 & m2 & _).
  set (m := min_size _ _ _ _) in *. rewrite code_size_eq by lia. set (size := Z.min (e + m) 24576).
  destruct (Z.ltb_spec size 0); [lia|]. apply fine_bind.
  - destruct m2 as [m2|(-> & -> & -> & ->)]; [|exact Logic.I]. destruct (negb _); [|exact Logic.I]. unfold solve.
    apply fine_bind; [apply solveVarOps_fine; lia|]. intros s1 _. apply fine_bind; [apply solveIsCode_fine; lia|]. intros s2 _. apply fine_bind; [apply solveIsData_fine; lia|]. intros s3 _. exact Logic.I.
  - intros [ops' b] _. destruct ops' as [|c l]; [exact Logic.I|]. destruct (_ >=? size); [exact Logic.I|]. apply fine_bind; [|intros code _; exact Logic.I].
    apply build_fine; [|lia]. intros k. pose proof (sort_perm (fun x y : Z * Z => fst x <? fst y) (c :: l)) as P. rewrite k in P. apply Permutation_nil in P. discriminate.
Qed.

(** *** Known positions *)
Definition bound_ops (a : Assignment) (l : list (Z * Z)) : list (Z * Z) := flat_map (fun c => match a (fst c) with Some p => [(p, snd c)] | None => [] end) l.
Lemma bind_known a l : forall ops, (forall x o, In (x, o) l -> exists p, a x = Some p /\ p <= 24576) -> bind_ops a l ops [] = Some (ops ++ bound_ops a l, []).
Proof.
  induction l as [|[x op] l IH]; intros ops h; cbn [bind_ops bound_ops flat_map]; [rewrite app_nil_r; reflexivity|]. destruct (h x op (or_introl eq_refl)) as (p & e & hp). cbn [fst snd]. rewrite e.
  replace ((2 ^ 64 <=? p) || (p >? MaxCodeSize)) with false by (symmetry; unfold MaxCodeSize; rewrite orb_false_iff, Z.leb_gt, Z.gtb_ltb, Z.ltb_ge; lia).
  rewrite IH by (intros x' o' k; apply (h x' o'); right; exact k). rewrite <-app_assoc. reflexivity.
Qed.
Lemma known_lists a qs : forall ps, positions a qs ps -> flat_map code_of qs = [] /\ flat_map data_of qs = [] /\ Permutation (map fst (flat_map const_of qs ++ bound_ops a (flat_map var_of qs))) ps.
Proof.
  unfold positions. induction qs as [|q qs IH]; intros ps h; cbn [map] in h; [destruct ps; [|discriminate]; repeat split; constructor|].
  destruct ps as [|p ps]; [discriminate|]. cbn [map] in h. injection h as h1 h2. destruct (IH ps h2) as (e1 & e2 & e3). destruct q as [p' o|x o|x|x]; cbn [known_position] in h1; try discriminate; cbn [flat_map code_of data_of const_of var_of app]; (split; [exact e1|split; [exact e2|]]).
  - injection h1 as ->. cbn [map fst]. constructor. exact e3.
  - cbn [bound_ops flat_map]. cbn [fst snd]. rewrite h1. cbn [app]. rewrite map_app. cbn [map fst]. apply Permutation_sym, Permutation_cons_app, Permutation_sym. rewrite <-map_app. exact e3.
Qed.

(** Operations in order that do not overlap. *)
Fixpoint chain (ops : list (Z * Z)) : Prop :=
  match ops with [] => True | (p, o) :: ops' => (forall q o', In (q, o') ops' -> p + push_len o < q) /\ chain ops' end.
Lemma sorted_chain code ops : (forall p o, In (p, o) ops -> operation_at code p o) -> NoDup (map fst ops) -> chain (sort (fun x y => fst x <? fst y) ops).
Proof.
  intros h hn. pose proof (sort_perm (fun x y : Z * Z => fst x <? fst y) ops) as P.
  assert (O : ordered (fun x y : Z * Z => fst x <? fst y) (sort (fun x y => fst x <? fst y) ops)).
  { apply sort_ordered; intros; rewrite ?Z.ltb_lt, ?Z.ltb_ge in *; lia. }
  assert (h' : forall p o, In (p, o) (sort (fun x y => fst x <? fst y) ops) -> operation_at code p o) by (intros p o k; apply h; apply (Permutation_in _ P); exact k).
  apply (Permutation_map fst), Permutation_sym in P. apply (Permutation_NoDup P) in hn. clear P h. revert O h' hn. generalize (sort (fun x y : Z * Z => fst x <? fst y) ops). clear ops.
  intros ops. induction ops as [|[p o] ops IH]; cbn [ordered chain map]; [auto|]. intros [o1 o2] h hn. inversion hn as [|? ? n1 n2]; subst. split; [|apply IH; auto; intros p' o' k; apply h; right; exact k].
  intros q o' k. apply (operations_apart code p o q o'); [apply h; left; reflexivity|apply h; right; exact k|]. specialize (o1 (q, o') k). cbn [fst] in o1. rewrite Z.ltb_ge in o1.
  destruct (Z.eq_dec p q) as [->|]; [|lia]. elim n1. apply in_map_iff. exists (q, o'). auto.
Qed.

Section Copy.
Variable fill : Z -> Z.
Variable code : list Z.
Hypothesis hbytes : Forall is_byte code.
Hypothesis hfill : forall i, fill i = code_at code i.
Lemma code_byte i : 0 <= code_at code i < 256.
Proof.
  destruct (Z_le_gt_dec 0 i); [destruct (Z_lt_ge_dec i (zlen code))|].
  - pose proof (znth_data code i ltac:(lia)) as h. unfold code_at. rewrite Forall_forall in hbytes. apply hbytes. unfold znth in h. destruct (i <? 0); [discriminate|]. exact (nth_error_In _ _ h).
  - unfold code_at, data_at. replace ((0 <=? i) && (i <? zlen code)) with false by (symmetry; rewrite andb_false_iff, Z.leb_gt, Z.ltb_ge; lia). lia.
  - unfold code_at, data_at. replace ((0 <=? i) && (i <? zlen code)) with false by (symmetry; rewrite andb_false_iff, Z.leb_gt, Z.ltb_ge; lia). lia.
Qed.
Lemma skipn_at i : 0 <= i < zlen code -> skipn (Z.to_nat i) code = code_at code i :: skipn (Z.to_nat (i + 1)) code.
Proof.
  intros h. pose proof (znth_data code i h) as z. unfold znth in z. destruct (i <? 0); [discriminate|]. replace (Z.to_nat (i + 1)) with (S (Z.to_nat i)) by lia. fold (code_at code i) in z.
  revert z. generalize (code_at code i). generalize (Z.to_nat i). clear. induction code as [|x l IH]; intros [|n] y z; cbn in *; try discriminate; [injection z as ->; reflexivity|]. apply IH. exact z.
Qed.
Lemma random_copy : forall n i, 0 <= i -> i + Z.of_nat n <= zlen code -> random_bytes fill i (Z.of_nat n) = firstn n (skipn (Z.to_nat i) code).
Proof.
  induction n as [|n IH]; intros i h1 h2; [reflexivity|]. rewrite skipn_at by lia. cbn [firstn]. rewrite <-IH by lia. unfold random_bytes. rewrite !Nat2Z.id. cbn [seq map]. rewrite Z.add_0_r, hfill, Z.mod_small by apply code_byte.
  f_equal. rewrite <-seq_shift, map_map. apply map_ext. intros k. f_equal. f_equal. lia.
Qed.
Lemma build_copy : forall k i ops, chain ops -> (forall p o, In (p, o) ops -> operation_at code p o /\ i <= p) -> ops <> [] -> instr_start code i -> (Z.to_nat (zlen code - i) < k)%nat ->
  build fill (zlen code) k i ops = Generated (skipn (Z.to_nat i) code).
Proof.
  induction k as [|k IH]; intros i ops hc ho hn hi hk; [lia|]. destruct ops as [|[next fixed] ops]; [congruence|]. cbn [build].
  pose proof (start_nonneg _ _ hi) as hi0. destruct (ho next fixed (or_introl eq_refl)) as [[on1 on2] hin]. pose proof (znth_in _ _ _ on2) as hnx. pose proof (znth_code_at _ _ _ on2) as en.
  rewrite Z.geb_leb. destruct (Z.leb_spec (zlen code) i); [lia|]. destruct (Z.ltb_spec next i); [lia|].
  assert (gap : i < next -> i + 1 + push_len (code_at code i) <= next) by (intros h; apply (start_gap code next on1 i hi h)).
  assert (X : exists rest, (if i =? next then (fixed, ops) else (random_op fill i next, (next, fixed) :: ops)) = (code_at code i, rest) /\ chain rest /\
     forall p o, In (p, o) rest -> operation_at code p o /\ i + 1 + push_len (code_at code i) <= p).
  { destruct (Z.eqb_spec i next) as [->|hne].
    - exists ops. split; [congruence|]. cbn [chain] in hc. destruct hc as [c1 c2]. split; [exact c2|]. intros p o h. split; [apply ho; right; exact h|]. specialize (c1 p o h). rewrite en. lia.
    - exists ((next, fixed) :: ops). split; [|split; [exact hc|]].
      + f_equal. unfold random_op. rewrite hfill, Z.mod_small by apply code_byte. specialize (gap ltac:(lia)). unfold push_len in gap. pose proof (code_byte i).
        set (c := code_at code i) in *. destruct (Z.ltb_spec (next - i - 1) 32).
        * destruct (Z.ltb_spec (0x60 + (next - i - 1) - 1) c); [|reflexivity]. destruct (Z.leb_spec c 0x7F); [|reflexivity]. destruct (Z.leb_spec 0x60 c); cbn [andb] in gap; lia.
        * destruct (Z.ltb_spec 0x7F c); [|reflexivity]. destruct (Z.leb_spec c 0x7F); [lia|reflexivity].
      + intros p o [h|h]; [injection h as <- <-; split; [split; assumption|apply gap; lia]|]. split; [apply ho; right; exact h|]. cbn [chain] in hc. destruct hc as [c1 _]. specialize (c1 p o h). pose proof (push_nonneg fixed). specialize (gap ltac:(lia)). lia. }
  destruct X as (rest & -> & hcr & hor). rewrite (skipn_at i) by lia. pose proof (push_nonneg (code_at code i)) as hpn. destruct rest as [|r rest].
  - f_equal. f_equal. replace (zlen code - (i + 1)) with (Z.of_nat (length (skipn (Z.to_nat (i + 1)) code))) by (rewrite skipn_length; unfold zlen in *; lia).
    rewrite random_copy; [apply firstn_all|lia|]. rewrite skipn_length. unfold zlen in *. lia.
  - assert (hlast : i + 1 + push_len (code_at code i) < zlen code). { destruct r as [p o]. destruct (hor p o (or_introl eq_refl)) as [[_ z] h]. apply znth_in in z. lia. }
    assert (hnext : instr_start code (i + 1 + push_len (code_at code i))) by (apply start_next; [exact hi|lia]).
    pose proof (IH (i + 1 + push_len (code_at code i)) (r :: rest) hcr hor ltac:(discriminate) hnext ltac:(lia)) as e.
    unfold is_push. destruct ((0x60 <=? code_at code i) && (code_at code i <=? 0x7F)) eqn:ep.
    + assert (ew : push_len (code_at code i) = code_at code i - 0x60 + 1) by (unfold push_len; rewrite ep; lia). rewrite <-ew, e. cbn [gbind]. f_equal. f_equal.
      rewrite Z.min_l by lia. replace (i + 1 + push_len (code_at code i) - (i + 1)) with (Z.of_nat (Z.to_nat (push_len (code_at code i)))) by lia. rewrite random_copy by lia.
      replace (Z.to_nat (i + 1 + push_len (code_at code i))) with (Z.to_nat (push_len (code_at code i)) + Z.to_nat (i + 1))%nat by lia.
      generalize (Z.to_nat (push_len (code_at code i))). intros n. rewrite <-(firstn_skipn n (skipn (Z.to_nat (i + 1)) code)) at 2. f_equal. clear. rewrite Nat.add_comm. revert n. generalize (Z.to_nat (i + 1)). induction code as [|x l IHl]; intros [|m] n; cbn; rewrite ?skipn_nil; auto.
    + assert (ew : push_len (code_at code i) = 0) by (unfold push_len; rewrite ep; reflexivity). rewrite ew, Z.add_0_r in e. rewrite e. reflexivity.
Qed.
End Copy.

Lemma build_total fill size : forall k i ops, chain ops -> (forall p o, In (p, o) ops -> i <= p < size) -> ops <> [] -> 0 <= i -> (Z.to_nat (size - i) < k)%nat -> exists l, build fill size k i ops = Generated l.
Proof.
  induction k as [|k IH]; intros i ops hc ho hn hi hk; [lia|]. destruct ops as [|[next fixed] ops]; [congruence|]. cbn [build]. pose proof (ho next fixed (or_introl eq_refl)) as hin.
  rewrite Z.geb_leb. destruct (Z.leb_spec size i); [lia|]. destruct (Z.ltb_spec next i); [lia|].
  assert (X : exists op rest, (if i =? next then (fixed, ops) else (random_op fill i next, (next, fixed) :: ops)) = (op, rest) /\ chain rest /\ forall p o, In (p, o) rest -> i + 1 + push_len op <= p < size).
  { destruct (Z.eqb_spec i next) as [->|hne].
    - exists fixed, ops. split; [reflexivity|]. cbn [chain] in hc. destruct hc as [c1 c2]. split; [exact c2|]. intros p o h. specialize (c1 p o h). specialize (ho p o (or_intror h)). lia.
    - exists (random_op fill i next), ((next, fixed) :: ops). split; [reflexivity|]. split; [exact hc|].
      assert (g : i + 1 + push_len (random_op fill i next) <= next).
      { unfold random_op. pose proof (Z.mod_pos_bound (fill i) 256 ltac:(lia)). set (c := fill i mod 256) in *. unfold push_len. destruct (Z.ltb_spec (next - i - 1) 32).
        - destruct (Z.ltb_spec (0x60 + (next - i - 1) - 1) c); [destruct (Z.leb_spec c 0x7F)|]; cbn [andb].
          + destruct (Z.leb_spec 0x60 (0x60 + (next - i - 1) - 1)), (Z.leb_spec (0x60 + (next - i - 1) - 1) 0x7F); cbn [andb]; lia.
          + destruct (Z.leb_spec 0x60 c), (Z.leb_spec c 0x7F); cbn [andb]; lia.
          + destruct (Z.leb_spec 0x60 c), (Z.leb_spec c 0x7F); cbn [andb]; lia.
        - destruct (Z.ltb_spec 0x7F c); [destruct (Z.leb_spec c 0x7F); [lia|]|]; cbn [andb]; destruct (Z.leb_spec 0x60 c), (Z.leb_spec c 0x7F); cbn [andb]; lia. }
      intros p o [h|h]; [injection h as <- <-; lia|]. cbn [chain] in hc. destruct hc as [c1 _]. specialize (c1 p o h). specialize (ho p o (or_intror h)). pose proof (push_nonneg fixed). lia. }
  destruct X as (op & rest & -> & hcr & hor). pose proof (push_nonneg op). destruct rest as [|r rest]; [eexists; reflexivity|].
  destruct (IH (i + 1 + push_len op) (r :: rest) hcr hor ltac:(discriminate) ltac:(lia)) as [l e]; [destruct r as [p o]; specialize (hor p o (or_introl eq_refl)); lia|].
  unfold is_push. unfold push_len in e. destruct ((0x60 <=? op) && (op <=? 0x7F)).
  - replace (i + 1 + (op - 0x60 + 1)) with (i + 1 + (op - 0x5F)) by lia. rewrite e. eexists. reflexivity.
  - rewrite Z.add_0_r in e. rewrite e. eexists. reflexivity.
Qed.

(** Everything about requests with known positions that a code fulfils. *)
Lemma known_case a qs ps code : positions a qs ps -> NoDup ps -> Forall (code_fulfils a code) qs -> zlen code <= 24576 -> zlen qs < 2 ^ 49 ->
  exists ops, (forall rnd fill e, CodeGenerate rnd fill e a (code_generator qs) =
      let size := code_size e (min_size ops [] [] []) in
      if size <? 0 then Panics
      else match ops with
      | [] => Generated (random_bytes fill 0 size, a)
      | _ => let sorted := sort (fun x y => fst x <? fst y) ops in
        if fst (last sorted (0, 0)) >=? size then ErrUnsatisfiable else gen! code <- build fill size (S (Z.to_nat size)) 0 sorted; Generated (code, a)
      end) /\
    Permutation (map fst ops) ps /\ (forall p o, In (p, o) ops -> operation_at code p o) /\ chain (sort (fun x y => fst x <? fst y) ops) /\ 0 <= min_size ops [] [] [] <= zlen code.
Proof.
  intros hp hn hf hc hl. destruct (known_lists a qs ps hp) as (e1 & e2 & e3). rewrite Forall_forall in hf.
  assert (hv : forall x o, In (x, o) (flat_map var_of qs) -> exists p, a x = Some p /\ operation_at code p o) by (intros x o h; apply var_in in h; apply (hf _ h)).
  assert (hb : bind_ops a (flat_map var_of qs) (flat_map const_of qs) [] = Some (flat_map const_of qs ++ bound_ops a (flat_map var_of qs), [])).
  { apply bind_known. intros x o h. destruct (hv x o h) as (p & h1 & _ & h2). apply znth_in in h2. exists p. split; [exact h1|lia]. }
  set (ops := flat_map const_of qs ++ bound_ops a (flat_map var_of qs)) in *.
  assert (hop : forall p o, In (p, o) ops -> operation_at code p o).
  { intros p o h. apply in_app_iff in h. destruct h as [h|h]; [apply const_in in h; exact (hf _ h)|]. unfold bound_ops in h. apply in_flat_map in h. destruct h as ([x o'] & h1 & h2). cbn [fst snd] in h2.
    destruct (hv x o' h1) as (p' & k1 & k2). rewrite k1 in h2. destruct h2 as [h2|[]]. injection h2 as <- <-. exact k2. }
  exists ops. split; [|split; [exact e3|split; [exact hop|split]]].
  - intros rnd fill e. rewrite generator_fields. unfold CodeGenerate. cbn [varOps constOps varIsCode varIsData]. rewrite hb, e1, e2. reflexivity.
  - apply (sorted_chain code); [exact hop|]. apply (Permutation_NoDup (Permutation_sym e3)). exact hn.
  - assert (hlo : zlen ops < 2 ^ 50).
    { assert (k : zlen ops = zlen ps) by (unfold zlen; rewrite <-(map_length fst ops), (Permutation_length e3); reflexivity). assert (k2 : zlen ps = zlen qs) by (unfold zlen, positions in *; rewrite <-(map_length Some ps), <-hp, map_length; reflexivity). lia. }
    pose proof (zlen_nonneg code). destruct (min_size_bounds ops [] [] [] (zlen code) ltac:(lia)) as (m1 & _ & m2).
    + intros p o h. destruct (hop p o h) as [_ z]. apply znth_in in z. lia.
    + reflexivity.
    + exact hlo.
    + split; [lia|]. apply m2; try reflexivity. apply distinct_le. intros o h. apply in_map_iff in h. destruct h as ([p o'] & k1 & k2). cbn in k1. subst o'. destruct (hop p o k2) as [_ z]. unfold znth in z. destruct (p <? 0); [discriminate|]. exact (nth_error_In _ _ z).
Qed.

Lemma sort_nonempty c l : sort (fun x y : Z * Z => fst x <? fst y) (c :: l) <> [].
Proof. intros k. pose proof (sort_perm (fun x y : Z * Z => fst x <? fst y) (c :: l)) as P. rewrite k in P. apply Permutation_nil in P. discriminate. Qed.
Lemma code_generate_complete a qs ps code : positions a qs ps -> NoDup ps -> Forall (code_fulfils a code) qs -> zlen code <= 24576 -> zlen qs < 2 ^ 49 -> Forall is_byte code ->
  exists fill e, 0 <= e < 2 ^ 31 /\ forall rnd, CodeGenerate rnd fill e a (code_generator qs) = Generated (code, a).
Proof.
  intros hp hn hf hc hl hby. destruct (known_case a qs ps code hp hn hf hc hl) as (ops & eq & hperm & hop & hch & hm). pose proof (zlen_nonneg code).
  exists (code_at code), (zlen code - min_size ops [] [] []). split; [lia|]. intros rnd. rewrite eq. cbv zeta. rewrite code_size_eq by lia. replace (Z.min (zlen code - min_size ops [] [] [] + min_size ops [] [] []) 24576) with (zlen code) by lia.
  destruct (Z.ltb_spec (zlen code) 0); [lia|]. destruct ops as [|c l].
  - f_equal. f_equal. replace (zlen code) with (Z.of_nat (length code)) by reflexivity. rewrite (random_copy _ code hby) by (try reflexivity; unfold zlen; lia). apply firstn_all.
  - pose proof (sort_nonempty c l) as hne. set (sorted := sort (fun x y : Z * Z => fst x <? fst y) (c :: l)) in *.
    assert (hin : forall p o, In (p, o) sorted -> operation_at code p o) by (intros p o h; apply hop; apply sort_in in h; exact h).
    pose proof (last_in sorted (0, 0) hne) as hla. destruct (last sorted (0, 0)) as [p o]. destruct (hin p o hla) as [_ z]. apply znth_in in z. cbn [fst]. rewrite Z.geb_leb. destruct (Z.leb_spec (zlen code) p); [lia|].
    rewrite (build_copy _ code hby) ; [reflexivity|reflexivity|exact hch| |exact hne|apply start_zero|lia].
    intros p' o' h. split; [exact (hin p' o' h)|]. destruct (hin p' o' h) as [_ z']. apply znth_in in z'. lia.
Qed.
Lemma code_generate_satisfiable a qs ps code : positions a qs ps -> NoDup ps -> Forall (code_fulfils a code) qs -> zlen code <= 24576 -> zlen qs < 2 ^ 49 ->
  forall rnd fill e, 0 <= e < 2 ^ 31 -> (forall p, In p ps -> p < e) -> exists code', CodeGenerate rnd fill e a (code_generator qs) = Generated (code', a).
Proof.
  intros hp hn hf hc hl rnd fill e he hpe. destruct (known_case a qs ps code hp hn hf hc hl) as (ops & eq & hperm & hop & hch & hm). rewrite eq. cbv zeta. rewrite code_size_eq by lia.
  set (size := Z.min (e + min_size ops [] [] []) 24576). destruct (Z.ltb_spec size 0); [lia|]. destruct ops as [|c l]; [eexists; reflexivity|].
  assert (hsz : forall p o, In (p, o) (c :: l) -> 0 <= p < size).
  { intros p o h. destruct (hop p o h) as [_ z]. apply znth_in in z. assert (k : In p ps) by (apply (Permutation_in _ hperm), in_map_iff; exists (p, o); auto). specialize (hpe p k). subst size. lia. }
  pose proof (sort_nonempty c l) as hne. set (sorted := sort (fun x y : Z * Z => fst x <? fst y) (c :: l)) in *.
  assert (hin : forall p o, In (p, o) sorted -> 0 <= p < size) by (intros p o h; apply (hsz p o); apply sort_in in h; exact h).
  pose proof (last_in sorted (0, 0) hne) as hla. destruct (last sorted (0, 0)) as [p o]. specialize (hin p o hla) as hpo. cbn [fst]. rewrite Z.geb_leb. destruct (Z.leb_spec size p); [lia|].
  destruct (build_total fill size (S (Z.to_nat size)) 0 sorted hch hin hne ltac:(lia) ltac:(lia)) as [code' e']. exists code'. rewrite e'. reflexivity.
Qed.
