(** The maps between positions of EVM code and positions of its long form. *)
From Verif Require Import Base Host SpecEvm MemFacts JumpFacts GoAdapter LfvmCode Lfvm LfvmOps LfvmConv LfvmStep Ct.
From Coq Require Import Lia ZArith List Bool.
Import ListNotations.
Open Scope Z_scope.

(** ** Assignments *)
Lemma assign_ok l i v : 0 <= i < zlen l -> assign l i v = Ok (list_upd l (Z.to_nat i) v).
Proof. intros h. unfold assign. destruct (Z.leb_spec 0 i), (Z.ltb_spec i (zlen l)); try lia. reflexivity. Qed.
Lemma upd_znth (l : list Z) i j v : 0 <= i < zlen l -> 0 <= j -> znth (list_upd l (Z.to_nat i) v) j = if j =? i then Some v else znth l j.
Proof.
  intros hi hj. destruct (Z_lt_ge_dec j (zlen l)) as [h|h].
  - rewrite znth_data by (rewrite list_upd_zlen; lia). rewrite list_upd_data by lia. rewrite (znth_data l j) by lia. rewrite Z.eqb_sym. destruct (i =? j); reflexivity.
  - destruct (Z.eqb_spec j i); [lia|]. rewrite (proj2 (znth_none _ _)) by (rewrite list_upd_zlen; lia). symmetry. apply znth_none. lia.
Qed.

Section Map.
Variable super : bool.
Variable code : list Z.
Hypothesis Hcode : Forall is_byte code.
Hypothesis Hsize : zlen code <= 65500.
Notation size := (zlen code).
Notation pos_at := (pos_at super code).
Notation pos_next := (pos_next super code).

(** ** The observations *)
Fixpoint falling (o : list (Z * Z)) : Prop :=
  match o with [] => True | (a, b) :: o => Forall (fun x => fst x < a /\ snd x < b) o /\ falling o end.
Record pos_ok (s : Z * Z * list (Z * Z)) : Prop := mkPosOk {
  po_q : 0 <= snd (fst s) <= fst (fst s);
  po_start : instr_start code (fst (fst s));
  po_in : Forall (fun x => 0 <= fst x < fst (fst s) /\ fst x < size /\ 0 <= snd x < snd (fst s) /\ snd x <= fst x) (snd s);
  po_falling : falling (snd s);
  po_end : snd (fst s) <= size + 16;
}.
Lemma super_start i e n : 0 <= i < size -> instr_start code i -> grouped super code i = Some (e, n) -> instr_start code (i + n + 1).
Proof.
  intros hi hs hg. destruct (group_walk code i e n (grouped_group super code i e n hi hg)) as (op & a & t & _ & hw & _). exact (walk_start code i _ _ hw hs).
Qed.
Lemma pos_next_ok s : pos_ok s -> pos_ok (pos_next s).
Proof.
  destruct s as [[i q] o]. intros [h1 h2 h3 h4 h5]. cbn [fst snd] in *. cbv beta iota delta [LfvmConv.pos_next]. pose proof (start_nonneg code i h2) as hi.
  destruct (Z.ltb_spec i size) as [hlt|hge]; [|split; assumption].
  assert (grow : forall i' q' a b, i <= a < i' -> a < size -> q <= b < q' -> b <= a -> q' <= i' -> q' <= size + 16 -> instr_start code i' -> pos_ok (i', q', (a, b) :: o)).
  { intros i' q' a b k1 k2 k3 k4 k5 k6 k7. split; cbn [fst snd]; try assumption; try lia.
    - constructor; [cbn; lia|]. eapply Forall_impl; [|exact h3]. cbn. intros; lia.
    - split; [|exact h4]. eapply Forall_impl; [|exact h3]. cbn. intros; lia. }
  pose proof (push_len_nonneg code i) as hp. pose proof (proj1 (entries_zlen code i)) as he.
  destruct (Z.eqb_spec (code_at code i) 0x5B) as [hd|hd].
  - apply grow; try lia. pose proof (start_next code i h2 hlt) as hs. rewrite hd in hs. change (push_len 0x5B) with 0 in hs. rewrite Z.add_0_r in hs. exact hs.
  - destruct (grouped super code i) as [[e n]|] eqn:eg.
    + pose proof (super_start i e n ltac:(lia) h2 eg) as hs. destruct (group_walk code i e n (grouped_group super code i e n ltac:(lia) eg)) as (op & a & t & ee & _ & _ & hz & hn & hin & _).
      assert (1 <= zlen e) by (rewrite ee, zlen_cons; pose proof (zlen_nonneg (map (pair L_DATA) t)); lia). apply grow; try lia. exact hs.
    + apply grow; try lia; [|exact (start_next code i h2 hlt)].
      destruct (Z_le_gt_dec (push_len (code_at code i)) 0); [lia|]. pose proof (proj2 (entries_zlen code i) ltac:(lia)) as hz.
      pose proof (Z.div_mod (push_len (code_at code i)) 2 ltac:(lia)). pose proof (Z.mod_pos_bound (push_len (code_at code i)) 2 ltac:(lia)). lia.
Qed.
Lemma pos_at_ok n : pos_ok (pos_at n).
Proof. induction n as [|n ih]; [|rewrite pos_succ; apply pos_next_ok; exact ih]. split; cbn; try lia; try constructor. pose proof (zlen_nonneg code). lia. Qed.
Lemma pos_end n k : size <= fst (fst (pos_at n)) -> pos_at (n + k) = pos_at n.
Proof.
  intros h. induction k as [|k ih]; [rewrite Nat.add_0_r; reflexivity|]. rewrite Nat.add_succ_r, pos_succ, ih. destruct (pos_at n) as [[i q] o]. cbn [fst] in h.
  cbv beta iota delta [LfvmConv.pos_next]. destruct (Z.ltb_spec i size); [lia|reflexivity].
Qed.
Lemma pos_keep n k : incl (snd (pos_at n)) (snd (pos_at (n + k))).
Proof.
  induction k as [|k ih]; [rewrite Nat.add_0_r; apply incl_refl|]. rewrite Nat.add_succ_r, pos_succ. eapply incl_tran; [exact ih|].
  destruct (pos_at (n + k)) as [[i q] o]. cbv beta iota delta [LfvmConv.pos_next]. destruct (i <? size); [|apply incl_refl].
  destruct (code_at code i =? 0x5B); [apply incl_tl, incl_refl|]. destruct (grouped super code i) as [[e m]|]; apply incl_tl, incl_refl.
Qed.
(** where the long form of the instruction at [i], reached after [q] instructions, begins *)
Definition target (i q : Z) : Z := if code_at code i =? 0x5B then i else q.
Lemma pos_observed n m i q : fst (pos_at n) = (i, q) -> i < size -> size <= fst (fst (pos_at m)) -> In (i, target i q) (snd (pos_at m)).
Proof.
  intros hn hi hm. destruct (Nat.le_gt_cases m n) as [h|h].
  - replace n with (m + (n - m))%nat in hn by lia. rewrite pos_end in hn by exact hm. rewrite hn in hm. cbn in hm. lia.
  - replace m with (S n + (m - S n))%nat by lia. apply pos_keep. rewrite pos_succ. destruct (pos_at n) as [[i0 q0] o]. cbn [fst] in hn. injection hn as -> ->.
    cbv beta iota delta [LfvmConv.pos_next]. destruct (Z.ltb_spec i size); [|lia]. unfold target. destruct (code_at code i =? 0x5B); [left; reflexivity|].
    destruct (grouped super code i) as [[e k]|]; left; reflexivity.
Qed.

Lemma observe_ok fuel : forall n i b o, pos_at n = (i, b_len b, o) -> zlen (b_rev b) = b_len b -> size <= b_cap b -> (Z.to_nat (size - i) <= fuel)%nat ->
  exists lc O m j, observe_loop fuel super size (skipn (Z.to_nat i) code) i b o = Ok (lc, O) /\ convert_loop fuel super size (skipn (Z.to_nat i) code) i b = Ok lc /\
    pos_at m = (j, zlen lc, O) /\ size <= j.
Proof.
  induction fuel as [|fuel ih]; intros n i b o hp hl hc hf.
  - pose proof (pos_at_ok n) as [k1 k2 _ _ _]. rewrite hp in k1, k2. cbn [fst snd] in k1, k2. rewrite skipn_all2 by (unfold zlen in hf; lia). cbn [observe_loop convert_loop].
    exists (toCode b), o, n, i. split; [reflexivity|]. split; [reflexivity|]. split; [|unfold zlen in *; lia]. rewrite toCode_rev. unfold zlen. rewrite rev_length. fold (zlen (b_rev b)). rewrite hl. exact hp.
  - pose proof (pos_at_ok n) as [k1 k2 _ _ _]. rewrite hp in k1, k2. cbn [fst snd] in k1, k2. pose proof (start_nonneg code i k2) as hi.
    destruct (Z_le_gt_dec size i).
    { rewrite skipn_all2 by (unfold zlen in *; lia). cbn [observe_loop convert_loop].
      exists (toCode b), o, n, i. split; [reflexivity|]. split; [reflexivity|]. split; [|lia]. rewrite toCode_rev. unfold zlen. rewrite rev_length. fold (zlen (b_rev b)). rewrite hl. exact hp. }
    assert (hnext : pos_at (S n) = pos_next (i, b_len b, o)) by (rewrite pos_succ, hp; reflexivity). cbv beta iota delta [LfvmConv.pos_next] in hnext. destruct (Z.ltb_spec i size); [|lia].
    rewrite (LfvmConv.skipn_cons code i) by lia. cbn [observe_loop convert_loop]. destruct (Z.eqb_spec (code_at code i) 0x5B) as [hd|hd].
    + assert (e1 : exists b1, (if b_len b <? i then appendOp b L_JUMP_TO (u16 i) else Ok b) = Ok b1 /\ zlen (b_rev b1) = b_len b1 /\ b_len b1 <= i /\ size <= b_cap b1).
      { destruct (Z.ltb_spec (b_len b) i).
        - rewrite appendOp_ok by lia. eexists. split; [reflexivity|]. cbn [b_rev b_len b_cap]. rewrite zlen_cons. lia.
        - eexists. split; [reflexivity|]. lia. }
      destruct e1 as (b1 & -> & m1 & m2 & m3). cbn [rbind]. unfold padNoOpsUntil. destruct (Z.ltb_spec i (b_len b1)); [lia|]. destruct (Z.ltb_spec (b_cap b1) i); [lia|]. cbn [rbind].
      unfold appendCode. rewrite appendOp_ok by (cbn; lia). cbn [rbind b_rev b_len b_cap skipn]. apply (ih (S n)); cbn [b_rev b_len b_cap]; [exact hnext| |lia|lia].
      rewrite zlen_cons, zlen_app. unfold zlen at 1. rewrite repeat_length. lia.
    + rewrite <- (LfvmConv.skipn_cons code i) by lia. pose proof (grouped_eq super code i b ltac:(lia) ltac:(lia) ltac:(lia)) as hg. destruct (grouped super code i) as [[e k]|] eqn:eg.
      * destruct (group_walk code i e k (grouped_group super code i e k ltac:(lia) eg)) as (op & a & t & ee & _ & _ & hz & hk & hin & _).
        unfold appendInstructions. rewrite hg. cbn [rbind]. destruct (Z.ltb_spec 0 k); [|lia]. cbn [rbind]. rewrite skipn_skipn'.
        replace (Z.to_nat i + Z.to_nat (k + 1))%nat with (Z.to_nat (i + k + 1)) by lia.
        apply (ih (S n)); cbn [b_rev b_len b_cap]; [exact hnext| |lia|lia]. rewrite zlen_app. replace (zlen (rev e)) with (zlen e) by (unfold zlen; rewrite rev_length; reflexivity). lia.
      * destruct (plain_ok super code b i ltac:(lia) ltac:(lia) ltac:(lia) ltac:(lia) hg) as (cap & c1 & c2). cbv zeta in c2. rewrite c2. cbn [rbind]. rewrite skipn_skipn'.
        pose proof (push_len_nonneg code i) as hpl. pose proof (proj1 (entries_zlen code i)) as he.
        replace (Z.to_nat i + Z.to_nat (push_len (code_at code i) + 1))%nat with (Z.to_nat (i + push_len (code_at code i) + 1)) by lia.
        apply (ih (S n)); cbn [b_rev b_len b_cap]; [rewrite hnext; f_equal; f_equal; lia| |lia|lia].
        rewrite zlen_app. replace (zlen (rev (entries code i (code_at code i)))) with (zlen (entries code i (code_at code i))) by (unfold zlen; rewrite rev_length; reflexivity). lia.
Qed.
Lemma observer_ok : exists lc O m j, convertWithObserver super code = Ok (lc, O) /\ convert super code = Ok lc /\ pos_at m = (j, zlen lc, O) /\ size <= j.
Proof. unfold convertWithObserver, convert. apply (observe_ok (length code) 0 0 (mkB [] 0 size) []); try reflexivity; cbn [b_cap]; unfold zlen; lia. Qed.

(** ** The maps *)
Lemma record_app os1 : forall os2 m, record (os1 ++ os2) m = do! m <- record os1 m; record os2 m.
Proof.
  induction os1 as [|[a b] os1 ih]; intros os2 m; [reflexivity|]. cbn [app record]. destruct (assign _ a _); try reflexivity. cbn [rbind]. destruct (assign _ b _); try reflexivity. cbn [rbind]. apply ih.
Qed.
Lemma record_ok o E L : falling o -> Forall (fun x => 0 <= fst x < zlen E /\ 0 <= snd x < zlen L) o ->
  exists E' L', record (rev o) (mkPcMap E L) = Ok (mkPcMap E' L') /\ zlen E' = zlen E /\ zlen L' = zlen L /\
    forall a b, In (a, b) o -> znth E' a = Some (u16 b) /\ znth L' b = Some (u16 a).
Proof.
  induction o as [|[a b] o ih]; intros hf hr.
  - exists E, L. split; [reflexivity|]. split; [reflexivity|]. split; [reflexivity|]. intros a b [].
  - destruct hf as [hf1 hf2]. inversion hr as [|? ? r1 r2]; subst. destruct (ih hf2 r2) as (E' & L' & e & hE & hL & hin). cbn [rev]. rewrite record_app, e. cbn [rbind record evmToLfvm lfvmToEvm]. cbn [fst snd] in r1.
    rewrite assign_ok by lia. cbn [rbind]. rewrite assign_ok by lia. cbn [rbind]. eexists. eexists. split; [reflexivity|]. rewrite !list_upd_zlen. split; [exact hE|]. split; [exact hL|].
    intros a' b' h. rewrite !upd_znth by (rewrite ?Forall_forall in *; destruct h as [h|h]; [injection h as <- <-; lia|specialize (r2 _ h); cbn in r2; lia]).
    destruct h as [h|h].
    + injection h as <- <-. rewrite !Z.eqb_refl. auto.
    + rewrite Forall_forall in hf1. specialize (hf1 _ h). cbn in hf1. destruct (Z.eqb_spec a' a); [lia|]. destruct (Z.eqb_spec b' b); [lia|]. apply hin. exact h.
Qed.
Lemma fixJumps_ok rest : forall k l, 0 <= k -> k + zlen rest <= zlen l ->
  exists l', fixJumps rest k l = Ok l' /\ zlen l' = zlen l /\ forall j, 0 <= j ->
    znth l' j = match (if k <=? j then znth rest (j - k) else None) with Some (op, arg) => if op =? L_JUMP_TO then Some arg else znth l j | None => znth l j end.
Proof.
  induction rest as [|[op arg] rest ih]; intros k l hk hl.
  - exists l. split; [reflexivity|]. split; [reflexivity|]. intros j hj. destruct (k <=? j); [|reflexivity]. rewrite (proj2 (znth_none (@nil (Z * Z)) (j - k))); [reflexivity|]. cbn. lia.
  - rewrite zlen_cons in hl. pose proof (zlen_nonneg rest). cbn [fixJumps].
    assert (e1 : exists l1, (if op =? L_JUMP_TO then assign l k arg else Ok l) = Ok l1 /\ zlen l1 = zlen l /\ forall j, 0 <= j -> znth l1 j = if (op =? L_JUMP_TO) && (j =? k) then Some arg else znth l j).
    { destruct (op =? L_JUMP_TO); [|exists l; auto]. rewrite assign_ok by lia. eexists. split; [reflexivity|]. rewrite list_upd_zlen. split; [reflexivity|]. intros j hj. rewrite upd_znth by lia. cbn [andb]. reflexivity. }
    destruct e1 as (l1 & -> & h1 & h2). cbn [rbind]. destruct (ih (k + 1) l1 ltac:(lia) ltac:(lia)) as (l' & e & h3 & h4). exists l'. split; [exact e|]. split; [lia|].
    intros j hj. rewrite h4, h2 by lia. destruct (Z.leb_spec (k + 1) j).
    + destruct (Z.leb_spec k j); [|lia]. replace (znth ((op, arg) :: rest) (j - k)) with (znth rest (j - (k + 1))).
      * destruct (Z.eqb_spec j k); [lia|]. rewrite andb_false_r. reflexivity.
      * rewrite !znth_nth by lia. replace (Z.to_nat (j - k)) with (S (Z.to_nat (j - (k + 1)))) by lia. reflexivity.
    + destruct (Z.leb_spec k j).
      * assert (j = k) by lia. subst j. rewrite Z.sub_diag. change (znth ((op, arg) :: rest) 0) with (Some (op, arg)). rewrite Z.eqb_refl, andb_true_r. reflexivity.
      * destruct (Z.eqb_spec j k); [lia|]. rewrite andb_false_r. reflexivity.
Qed.
End Map.

Section PcMap.
Variable code : list Z.
Hypothesis Hcode : Forall is_byte code.
Hypothesis Hsize : zlen code <= 65500.
Notation size := (zlen code).
Notation pos_at := (pos_at false code).

Theorem genPcMap_ok : exists lc m, convert false code = Ok lc /\ genPcMap code = Ok m /\ zlen lc <= size + 16 /\
  zlen (evmToLfvm m) = size + 1 /\ znth (evmToLfvm m) size = Some (zlen lc) /\ znth (lfvmToEvm m) (zlen lc) = Some size /\
  forall n i q, fst (pos_at n) = (i, q) -> i < size -> znth (evmToLfvm m) i = Some (target code i q) /\
    (forall op a, znth lc (target code i q) = Some (op, a) -> op <> L_JUMP_TO -> znth (lfvmToEvm m) (target code i q) = Some i) /\
    (forall k a, 0 <= k -> znth lc k = Some (L_JUMP_TO, a) -> znth (lfvmToEvm m) k = Some a).
Proof.
  destruct (observer_ok false code Hsize) as (lc & O & m & j & e1 & e2 & hm & hj). pose proof (zlen_nonneg code) as hs0. pose proof (zlen_nonneg lc) as hl0.
  pose proof (pos_at_ok false code m) as [k1 k2 k3 k4 k5]. rewrite hm in *. cbn [fst snd] in *.
  unfold genPcMap. rewrite e1. cbn [rbind].
  destruct (record_ok O (zeros (size + 1)) (zeros (size + 1)) k4) as (E & L & e3 & hE & hL & hin).
  { rewrite zlen_zeros. eapply Forall_impl; [|exact k3]. intros [a b]. cbn. lia. }
  rewrite zlen_zeros in hE, hL. rewrite Z.max_r in hE, hL by lia. rewrite e3. cbn [rbind evmToLfvm lfvmToEvm]. rewrite assign_ok by lia. cbn [rbind].
  set (L1 := if zlen L <? zlen lc + 1 then L ++ zeros (zlen lc + 1 - zlen L) else L).
  assert (hL1 : zlen lc + 1 <= zlen L1 /\ forall k, 0 <= k < zlen L -> znth L1 k = znth L k).
  { unfold L1. destruct (Z.ltb_spec (zlen L) (zlen lc + 1)); [|split; [lia|reflexivity]]. split; [rewrite zlen_app, zlen_zeros; lia|].
    intros k hk. rewrite !znth_nth by lia. rewrite nth_error_app1 by (unfold zlen in hk; lia). reflexivity. }
  destruct hL1 as [hL1 hL2]. rewrite assign_ok by lia. cbn [rbind].
  destruct (fixJumps_ok lc 0 (list_upd L1 (Z.to_nat (zlen lc)) (u16 size)) ltac:(lia) ltac:(rewrite list_upd_zlen; lia)) as (L2 & e4 & h4 & h5). rewrite e4. cbn [rbind].
  assert (h6 : forall k, 0 <= k -> znth L2 k = match znth lc k with Some (op, arg) => if op =? L_JUMP_TO then Some arg else znth L1 k | None => if k =? zlen lc then Some (u16 size) else znth L1 k end).
  { intros k hk. rewrite h5 by exact hk. destruct (Z.leb_spec 0 k); [|lia]. rewrite Z.sub_0_r. rewrite upd_znth by lia. destruct (znth lc k) as [[op arg]|] eqn:ez; [|reflexivity].
    apply znth_in in ez. destruct (Z.eqb_spec k (zlen lc)); [lia|reflexivity]. }
  assert (hu : forall z, 0 <= z < 65536 -> u16 z = z) by (intros z hz; unfold u16; apply Z.mod_small; lia).
  exists lc. eexists. split; [exact e2|]. split; [reflexivity|]. cbn [evmToLfvm lfvmToEvm]. split; [lia|]. split; [rewrite list_upd_zlen; lia|].
  split; [rewrite upd_znth by lia; rewrite Z.eqb_refl, hu by lia; reflexivity|].
  split; [rewrite h6 by lia; rewrite (proj2 (znth_none lc (zlen lc))) by lia; rewrite Z.eqb_refl, hu by lia; reflexivity|].
  intros n i q hn hi. pose proof (pos_observed false code n m i q hn hi ltac:(rewrite hm; cbn; lia)) as ho. rewrite hm in ho. cbn [snd] in ho.
  destruct (hin _ _ ho) as [g1 g2]. rewrite Forall_forall in k3. specialize (k3 _ ho). cbn [fst snd] in k3.
  split; [rewrite upd_znth by lia; destruct (Z.eqb_spec i size); [lia|]; rewrite g1, hu by lia; reflexivity|]. split.
  - intros op a hz hne. rewrite h6 by lia. rewrite hz. destruct (Z.eqb_spec op L_JUMP_TO); [contradiction|]. rewrite hL2 by lia. rewrite g2, hu by lia. reflexivity.
  - intros k a hk hz. rewrite h6 by lia. rewrite hz. rewrite Z.eqb_refl. reflexivity.
Qed.
End PcMap.
