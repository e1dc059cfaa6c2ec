(** Facts about GoTypes.v. *)
From Coq Require Import Lia ZArith List Bool String.
From Verif Require Import Base SpecEvm Floria GoTypes ArithFacts.
Import ListNotations.
Local Open Scope list_scope.
Local Open Scope Z_scope.

(** ** Values *)
Definition a_value (v : list Z) : Prop := zlen v = 32 /\ Forall is_byte v.

Lemma limb_range v i : a_value v -> 0 <= i <= 3 -> 0 <= limb v i < 2 ^ 64.
Proof.
  intros (L & B) Hi. unfold limb. change (2 ^ 64) with (256 ^ 8).
  pose proof (be_range (slice v (24 - i * 8) 8) (Forall_slice _ _ _ _ B)) as R. rewrite slice_zlen in R by lia. exact R.
Qed.
Lemma value_limbs v : a_value v -> be v = limb v 3 * 2 ^ 192 + limb v 2 * 2 ^ 128 + limb v 1 * 2 ^ 64 + limb v 0.
Proof.
  intros (L & B).
  assert (S : v = slice v 0 8 ++ slice v 8 8 ++ slice v 16 8 ++ slice v 24 8).
  { pose proof (slice_app v 16 8 8 ltac:(lia) ltac:(lia) ltac:(lia)) as S1. pose proof (slice_app v 8 8 16 ltac:(lia) ltac:(lia) ltac:(lia)) as S2.
    pose proof (slice_app v 0 8 24 ltac:(lia) ltac:(lia) ltac:(lia)) as S3. cbn [Z.add Pos.add Pos.succ] in S1, S2, S3. rewrite <- S1, <- S2, <- S3.
    unfold slice. cbn [Z.to_nat Nat.add]. rewrite skipn_O, firstn_all2; [reflexivity|]. unfold zlen in L. lia. }
  rewrite S at 1. rewrite !be_app. unfold limb.
  change (24 - 3 * 8) with 0. change (24 - 2 * 8) with 8. change (24 - 1 * 8) with 16. change (24 - 0 * 8) with 24.
  assert (Z1 : forall i, 0 <= i <= 24 -> zlen (slice v i 8) = 8) by (intros; apply slice_zlen; lia).
  assert (ZA : forall x y : list Z, zlen (x ++ y) = zlen x + zlen y) by (intros; unfold zlen; rewrite app_length; lia).
  rewrite !ZA, !Z1 by lia. change (256 ^ (8 + (8 + 8))) with (2 ^ 192). change (256 ^ (8 + 8)) with (2 ^ 128). change (256 ^ 8) with (2 ^ 64). ring.
Qed.
Lemma put64_be n : be (put64 n) = n mod 2 ^ 64.
Proof. unfold put64. rewrite be_be_bytes. reflexivity. Qed.
Lemma put64_len n : zlen (put64 n) = 8. Proof. reflexivity. Qed.
Lemma four_limbs a b c d : a_value (put64 a ++ put64 b ++ put64 c ++ put64 d) /\
  be (put64 a ++ put64 b ++ put64 c ++ put64 d) = (a mod 2 ^ 64) * 2 ^ 192 + (b mod 2 ^ 64) * 2 ^ 128 + (c mod 2 ^ 64) * 2 ^ 64 + d mod 2 ^ 64.
Proof.
  split; [split; [reflexivity|]|].
  - repeat apply Forall_app_intro || idtac. rewrite !Forall_app. repeat split; apply be_bytes_byte.
  - rewrite !be_app, !put64_be. change (256 ^ zlen (put64 b ++ put64 c ++ put64 d)) with (2 ^ 192). change (256 ^ zlen (put64 c ++ put64 d)) with (2 ^ 128).
    change (256 ^ zlen (put64 d)) with (2 ^ 64). ring.
Qed.
Lemma add_ok a b : a_value a -> a_value b -> a_value (Add a b) /\ be (Add a b) = (be a + be b) mod 2 ^ 256.
Proof.
  intros A B. unfold Add, add64, u64.
  set (c0 := (limb a 0 + limb b 0 + 0) / 2 ^ 64). set (c1 := (limb a 1 + limb b 1 + c0) / 2 ^ 64). set (c2 := (limb a 2 + limb b 2 + c1) / 2 ^ 64).
  match goal with |- context [put64 ?x ++ put64 ?y ++ put64 ?z ++ put64 ?w] => destruct (four_limbs x y z w) as (V & E) end.
  split; [exact V|]. rewrite E, (value_limbs a A), (value_limbs b B). rewrite !Zmod_mod.
  pose proof (limb_range a 0 A ltac:(lia)). pose proof (limb_range a 1 A ltac:(lia)). pose proof (limb_range a 2 A ltac:(lia)). pose proof (limb_range a 3 A ltac:(lia)).
  pose proof (limb_range b 0 B ltac:(lia)). pose proof (limb_range b 1 B ltac:(lia)). pose proof (limb_range b 2 B ltac:(lia)). pose proof (limb_range b 3 B ltac:(lia)).
  set (a0 := limb a 0) in *. set (a1 := limb a 1) in *. set (a2 := limb a 2) in *. set (a3 := limb a 3) in *.
  set (b0 := limb b 0) in *. set (b1 := limb b 1) in *. set (b2 := limb b 2) in *. set (b3 := limb b 3) in *.
  pose proof (Z.div_mod (a0 + b0 + 0) (2 ^ 64) ltac:(lia)) as D0. fold c0 in D0.
  pose proof (Z.div_mod (a1 + b1 + c0) (2 ^ 64) ltac:(lia)) as D1. fold c1 in D1.
  pose proof (Z.div_mod (a2 + b2 + c1) (2 ^ 64) ltac:(lia)) as D2. fold c2 in D2.
  pose proof (Z.div_mod (a3 + b3 + c2) (2 ^ 64) ltac:(lia)) as D3.
  pose proof (Z.mod_pos_bound (a0 + b0 + 0) (2 ^ 64) ltac:(lia)). pose proof (Z.mod_pos_bound (a1 + b1 + c0) (2 ^ 64) ltac:(lia)).
  pose proof (Z.mod_pos_bound (a2 + b2 + c1) (2 ^ 64) ltac:(lia)). pose proof (Z.mod_pos_bound (a3 + b3 + c2) (2 ^ 64) ltac:(lia)).
  apply (Zmod_unique _ (2 ^ 256) ((a3 + b3 + c2) / 2 ^ 64)); lia.
Qed.
Lemma sub_ok a b : a_value a -> a_value b -> a_value (Sub a b) /\ be (Sub a b) = (be a - be b) mod 2 ^ 256.
Proof.
  intros A B. unfold Sub, sub64, u64.
  set (c0 := if limb a 0 <? limb b 0 + 0 then 1 else 0). set (c1 := if limb a 1 <? limb b 1 + c0 then 1 else 0). set (c2 := if limb a 2 <? limb b 2 + c1 then 1 else 0).
  match goal with |- context [put64 ?x ++ put64 ?y ++ put64 ?z ++ put64 ?w] => destruct (four_limbs x y z w) as (V & E) end.
  split; [exact V|]. rewrite E, (value_limbs a A), (value_limbs b B). rewrite !Zmod_mod.
  pose proof (limb_range a 0 A ltac:(lia)). pose proof (limb_range a 1 A ltac:(lia)). pose proof (limb_range a 2 A ltac:(lia)). pose proof (limb_range a 3 A ltac:(lia)).
  pose proof (limb_range b 0 B ltac:(lia)). pose proof (limb_range b 1 B ltac:(lia)). pose proof (limb_range b 2 B ltac:(lia)). pose proof (limb_range b 3 B ltac:(lia)).
  set (a0 := limb a 0) in *. set (a1 := limb a 1) in *. set (a2 := limb a 2) in *. set (a3 := limb a 3) in *.
  set (b0 := limb b 0) in *. set (b1 := limb b 1) in *. set (b2 := limb b 2) in *. set (b3 := limb b 3) in *.
  assert (S : forall x y c, 0 <= x < 2 ^ 64 -> 0 <= y < 2 ^ 64 -> 0 <= c <= 1 -> (x - y - c) mod 2 ^ 64 = x - y - c + 2 ^ 64 * (if x <? y + c then 1 else 0)).
  { intros x y c Hx Hy Hc. symmetry. destruct (Z.ltb_spec x (y + c)).
    - apply (Zmod_unique _ _ (-1)); lia.
    - apply (Zmod_unique _ _ 0); lia. }
  assert (B01 : forall b : bool, 0 <= (if b then 1 else 0) <= 1) by (intros []; lia).
  assert (C0 : 0 <= c0 <= 1) by apply B01. assert (C1 : 0 <= c1 <= 1) by apply B01. assert (C2 : 0 <= c2 <= 1) by apply B01.
  assert (R : forall x y c, 0 <= x < 2 ^ 64 -> 0 <= y < 2 ^ 64 -> 0 <= c <= 1 -> 0 <= x - y - c + 2 ^ 64 * (if x <? y + c then 1 else 0) < 2 ^ 64).
  { intros x y c Hx Hy Hc. destruct (Z.ltb_spec x (y + c)); lia. }
  rewrite (S a0 b0 0), (S a1 b1 c0), (S a2 b2 c1), (S a3 b3 c2) by lia. fold c0 c1 c2.
  pose proof (R a0 b0 0 ltac:(lia) ltac:(lia) ltac:(lia)) as X0. fold c0 in X0. pose proof (R a1 b1 c0 ltac:(lia) ltac:(lia) ltac:(lia)) as X1. fold c1 in X1.
  pose proof (R a2 b2 c1 ltac:(lia) ltac:(lia) ltac:(lia)) as X2. fold c2 in X2. pose proof (R a3 b3 c2 ltac:(lia) ltac:(lia) ltac:(lia)) as X3.
  clearbody c0 c1 c2 a0 a1 a2 a3 b0 b1 b2 b3. clear R S E V B01. set (c3 := if a3 <? b3 + c2 then 1 else 0) in *. clearbody c3.
  apply (Zmod_unique _ (2 ^ 256) (- c3)); lia.
Qed.
Lemma cmp_ok a b : zlen a = zlen b -> Forall is_byte a -> Forall is_byte b -> Cmp a b = match be a ?= be b with Lt => -1 | Eq => 0 | Gt => 1 end.
Proof.
  revert b. induction a as [|x a IH]; intros [|y b] L A B.
  - reflexivity.
  - unfold zlen in L. cbn in L. lia.
  - unfold zlen in L. cbn in L. lia.
  - inversion A as [|? ? X A']. inversion B as [|? ? Y B']. subst.
    assert (L' : zlen a = zlen b) by (unfold zlen in *; cbn [length] in L; lia).
    cbn [Cmp]. rewrite !be_cons, <- L'. pose proof (be_range a A') as RA. pose proof (be_range b B') as RB. rewrite <- L' in RB.
    set (p := 256 ^ zlen a) in *. destruct (Z.ltb_spec x y); [|destruct (Z.ltb_spec y x)].
    + assert (x * p + be a < y * p + be b) by nia. rewrite (proj2 (Z.compare_lt_iff _ _)) by assumption. reflexivity.
    + assert (x * p + be a > y * p + be b) by nia. rewrite (proj2 (Z.compare_gt_iff _ _)) by lia. reflexivity.
    + assert (x = y) by lia. subst y. rewrite (IH b L' A' B'). rewrite Z.add_compare_mono_l. reflexivity.
Qed.
Lemma be_zeros' n : be (zeros n) = 0.
Proof. unfold zeros. induction (Z.to_nat n) as [|k IH]; [reflexivity|]. cbn [repeat]. rewrite be_cons, IH. lia. Qed.
Lemma new_value_ok args : zlen args <= 4 -> Forall (fun x => 0 <= x < 2 ^ 64) args ->
  exists v, NewValue args = Some v /\ a_value v /\ be v = fold_left (fun n x => 2 ^ 64 * n + x) args 0.
Proof.
  intros L H. unfold NewValue. destruct (Z.ltb_spec 4 (zlen args)); [lia|]. eexists. split; [reflexivity|].
  destruct args as [|x0 [|x1 [|x2 [|x3 [|x4 args]]]]]; [..|exfalso; unfold zlen in L; cbn [length] in L; lia].
  all: repeat match goal with H : Forall _ (_ :: _) |- _ => inversion H; clear H; subst end.
  all: (split; [split; [reflexivity|]|]); [rewrite Forall_app; split; [unfold zeros; apply Forall_forall; intros b Hb; apply repeat_spec in Hb; subst; unfold is_byte; lia|
    cbn [map List.concat app]; rewrite ?Forall_app; repeat split; try apply be_bytes_byte; constructor]|].
  all: cbn [map List.concat fold_left]; rewrite ?app_nil_r, ?be_app, be_zeros', ?put64_be.
  all: repeat match goal with |- context [256 ^ ?z] => let e := eval vm_compute in (256 ^ z) in change (256 ^ z) with e end.
  all: rewrite ?Z.mod_small by lia; try lia. all: reflexivity.
Qed.
Lemma new_value_many args : 4 < zlen args -> NewValue args = None.
Proof. intros H. unfold NewValue. destruct (Z.ltb_spec 4 (zlen args)); [reflexivity|lia]. Qed.
Lemma scale_ok v s : a_value (Scale v s) /\ be (Scale v s) = (be v * s) mod 2 ^ 256.
Proof.
  unfold Scale. split; [split; [reflexivity|apply be_bytes_byte]|]. rewrite be_be_bytes. change (256 ^ Z.of_nat 32) with (2 ^ 256). apply Zmod_mod.
Qed.

(** ** Texts *)
Lemma hex_digit_value n : 0 <= n < 16 -> hex_value (hex_digit n) = Some n.
Proof. intros H. assert (n = 0 \/ n = 1 \/ n = 2 \/ n = 3 \/ n = 4 \/ n = 5 \/ n = 6 \/ n = 7 \/ n = 8 \/ n = 9 \/ n = 10 \/ n = 11 \/ n = 12 \/ n = 13 \/ n = 14 \/ n = 15) by lia.
  repeat match goal with H : _ \/ _ |- _ => destruct H as [-> | H] end; [..|subst n]; reflexivity. Qed.
Lemma hex_value_digit c n : hex_value c = Some n -> 0 <= n < 16 /\ hex_digit n = lower c.
Proof.
  unfold hex_value, lower. destruct ((48 <=? c) && (c <=? 57)) eqn:E1; [|destruct ((97 <=? c) && (c <=? 102)) eqn:E2; [|destruct ((65 <=? c) && (c <=? 70)) eqn:E3; [|discriminate]]];
  intros X; injection X as <-; unfold hex_digit.
  - apply andb_true_iff in E1. destruct E1. destruct (Z.ltb_spec (c - 48) 10), (Z.leb_spec 65 c), (Z.leb_spec c 90); cbn [andb]; lia.
  - apply andb_true_iff in E2. destruct E2. destruct (Z.ltb_spec (c - 97 + 10) 10), (Z.leb_spec 65 c), (Z.leb_spec c 90); cbn [andb]; lia.
  - apply andb_true_iff in E3. destruct E3. destruct (Z.ltb_spec (c - 65 + 10) 10), (Z.leb_spec 65 c), (Z.leb_spec c 90); cbn [andb]; lia.
Qed.
Lemma of_to_hex bs : Forall is_byte bs -> of_hex (to_hex bs) = Some bs.
Proof.
  induction 1 as [|b bs B _ IH]; [reflexivity|]. unfold to_hex in *. cbn [map List.concat app of_hex]. unfold is_byte in B.
  assert (0 <= b / 16 < 16) by (split; [apply Z.div_pos|apply Z.div_lt_upper_bound]; lia). assert (0 <= b mod 16 < 16) by (apply Z.mod_pos_bound; lia).
  rewrite !hex_digit_value, IH by assumption.
  rewrite <- Z.div_mod by lia. reflexivity.
Qed.
Lemma to_of_hex n : forall cs bs, (length cs <= n)%nat -> of_hex cs = Some bs -> Forall is_byte bs /\ to_hex bs = map lower cs.
Proof.
  induction n as [|n IH]; intros cs bs L E.
  - destruct cs; [|cbn in L; lia]. injection E as <-. split; [constructor|reflexivity].
  - destruct cs as [|a [|b cs]]; cbn [of_hex] in E; [injection E as <-; split; [constructor|reflexivity]|discriminate|].
    destruct (hex_value a) as [x|] eqn:Ea; [|discriminate]. destruct (hex_value b) as [y|] eqn:Eb; [|discriminate]. destruct (of_hex cs) as [r|] eqn:Er; [|discriminate].
    assert (bs = 16 * x + y :: r) by congruence. subst bs. clear E. destruct (hex_value_digit _ _ Ea) as (Rx & Dx). destruct (hex_value_digit _ _ Eb) as (Ry & Dy).
    destruct (IH cs r ltac:(cbn in L; lia) Er) as (B & T). split; [constructor; [unfold is_byte; lia|exact B]|].
    unfold to_hex in *. cbn [map List.concat app]. rewrite T.
    replace ((16 * x + y) / 16) with x by (apply (Zdiv_unique _ _ _ y); lia). replace ((16 * x + y) mod 16) with y by (apply (Zmod_unique _ _ x); lia).
    rewrite Dx, Dy. reflexivity.
Qed.
Lemma text_roundtrip bs : Forall is_byte bs -> textToBytes (zlen bs) (bytesToText bs) = Some bs.
Proof. intros H. unfold bytesToText, textToBytes. rewrite of_to_hex, !Z.eqb_refl by exact H. reflexivity. Qed.
Lemma text_accepted n text bs : textToBytes n text = Some bs -> zlen bs = n /\ Forall is_byte bs /\ bytesToText bs = map lower text.
Proof.
  unfold textToBytes. destruct text as [|c1 [|c2 cs]]; try discriminate.
  destruct (Z.eqb_spec c1 48) as [->|]; [|discriminate]. destruct (Z.eqb_spec c2 120) as [->|]; [|discriminate]. cbn [andb].
  destruct (of_hex cs) as [bs'|] eqn:E; [|discriminate]. destruct (Z.eqb_spec (zlen bs') n); [|discriminate]. intros X. injection X as <-.
  destruct (to_of_hex _ _ _ (le_n _) E) as (B & T). split; [assumption|]. split; [assumption|]. unfold bytesToText. rewrite T. reflexivity.
Qed.

(** ** Call kinds and revisions *)
Lemma index_of_some l text n k : index_of l text n = Some k -> n <= k /\ znth l (k - n) = Some text.
Proof.
  revert n. induction l as [|x l IH]; intros n E; [discriminate|]. cbn [index_of] in E. destruct (list_eq_dec Z.eq_dec x text) as [->|].
  - injection E as <-. split; [lia|]. rewrite Z.sub_diag. reflexivity.
  - destruct (IH _ E) as (L & X). split; [lia|]. replace (k - n) with (k - (n + 1) + 1) by lia. rewrite <- X. unfold znth.
    destruct (Z.ltb_spec (k - (n + 1) + 1) 0), (Z.ltb_spec (k - (n + 1)) 0); try lia. replace (Z.to_nat (k - (n + 1) + 1)) with (S (Z.to_nat (k - (n + 1)))) by lia. reflexivity.
Qed.
Lemma kind_roundtrip k text : kind_text k = Some text -> kind_of_text text = Some k.
Proof.
  unfold kind_text. intros H. assert (R : 0 <= k < 6). { unfold znth in H. destruct (Z.ltb_spec k 0); [discriminate|]. assert (nth_error kind_names (Z.to_nat k) <> None) by congruence. apply nth_error_Some in H1. cbn in H1. lia. }
  assert (C : k = 0 \/ k = 1 \/ k = 2 \/ k = 3 \/ k = 4 \/ k = 5) by lia.
  repeat match goal with H : _ \/ _ |- _ => destruct H as [-> | H] end; [..|subst k]; injection H as <-; reflexivity.
Qed.
Lemma kind_accepted text k : kind_of_text text = Some k -> 0 <= k < 6 /\ kind_text k = Some (map lower text).
Proof.
  intros H. apply index_of_some in H. rewrite Z.sub_0_r in H. destruct H as (L & E). split; [|exact E]. unfold znth in E. destruct (Z.ltb_spec k 0); [lia|].
  assert (X : nth_error kind_names (Z.to_nat k) <> None) by congruence. apply nth_error_Some in X. cbn in X. lia.
Qed.

Lemma digits_digit fuel n : 0 <= n -> Forall (fun c => is_digit c = true) (digits fuel n).
Proof.
  assert (D : forall x, 0 <= x < 10 -> is_digit (48 + x) = true) by (intros; unfold is_digit; apply andb_true_iff; split; apply Z.leb_le; lia).
  revert n. induction fuel as [|fuel IH]; intros n H; [constructor|]. cbn [digits]. destruct (Z.ltb_spec n 10).
  - constructor; [apply D; lia|constructor].
  - rewrite Forall_app. split; [apply IH, Z.div_pos; lia|]. constructor; [apply D, Z.mod_pos_bound; lia|constructor].
Qed.
Lemma number_app a c : number (a ++ [c]) = 10 * number a + (c - 48).
Proof. unfold number. rewrite fold_left_app. reflexivity. Qed.
Lemma digits_number fuel n : 0 <= n < 10 ^ Z.of_nat fuel -> number (digits fuel n) = n.
Proof.
  revert n. induction fuel as [|fuel IH]; intros n H; [change (10 ^ Z.of_nat 0) with 1 in H; cbn; lia|]. cbn [digits]. destruct (Z.ltb_spec n 10).
  - unfold number. cbn [fold_left]. lia.
  - rewrite number_app, IH. { pose proof (Z.div_mod n 10 ltac:(lia)). lia. }
    split; [apply Z.div_pos; lia|]. apply Z.div_lt_upper_bound; [lia|]. replace (Z.of_nat (S fuel)) with (1 + Z.of_nat fuel) in H by lia. rewrite Z.pow_add_r in H by lia. lia.
Qed.
Lemma digits_cons fuel n : (0 < fuel)%nat -> digits fuel n <> [].
Proof. destruct fuel as [|fuel]; [lia|]. intros _. cbn [digits]. destruct (n <? 10); [discriminate|]. destruct (digits fuel (n / 10)); discriminate. Qed.
Lemma take_digits_app ds rest : Forall (fun c => is_digit c = true) ds -> match rest with c :: _ => is_digit c = false | [] => True end -> take_digits (ds ++ rest) = (ds, rest).
Proof.
  intros D R. induction D as [|c ds C _ IH].
  - cbn [app]. destruct rest as [|c rest]; [reflexivity|]. cbn [take_digits]. rewrite R. reflexivity.
  - cbn [app take_digits]. rewrite C, IH. reflexivity.
Qed.
Lemma strip_app p cs : strip p (p ++ cs) = Some cs.
Proof. induction p as [|c p IH]; [reflexivity|]. cbn [app strip]. rewrite Z.eqb_refl. exact IH. Qed.
Lemma first_match_here cs ds : match_here cs = Some ds -> first_match cs = Some ds.
Proof. intros H. destruct cs; cbn [first_match]; rewrite H; reflexivity. Qed.
Lemma revision_roundtrip r : 0 <= r < 2 ^ 63 -> revision_of_text (revision_text r) = Some r.
Proof.
  intros H. destruct (Z.ltb_spec r 6) as [H6|H6].
  - assert (C : r = 0 \/ r = 1 \/ r = 2 \/ r = 3 \/ r = 4 \/ r = 5) by lia.
    repeat match goal with H : _ \/ _ |- _ => destruct H as [-> | H] end; [..|subst r]; reflexivity.
  - unfold revision_text. assert (E : znth revision_names r = None).
    { unfold znth. destruct (Z.ltb_spec r 0); [lia|]. apply nth_error_None. cbn. lia. }
    rewrite E. unfold decimal. destruct (Z.ltb_spec r 0); [lia|]. unfold revision_of_text.
    set (ds := digits 20 r).
    assert (I : index_of revision_names (ascii_bytes "Revision(" ++ ds ++ [41]) 0 = None).
    { unfold revision_names. cbn [map index_of ascii_bytes]. cbn. repeat match goal with |- context [list_eq_dec ?d ?a ?b] => destruct (list_eq_dec d a b) as [X|X]; [discriminate X|clear X] end. reflexivity. }
    rewrite I. rewrite (first_match_here _ ds).
    + unfold ds. rewrite digits_number. { destruct (Z.ltb_spec r (2 ^ 63)); [reflexivity|lia]. } split; [lia|]. change (10 ^ Z.of_nat 20) with 100000000000000000000. lia.
    + unfold match_here. rewrite strip_app, take_digits_app; [|apply digits_digit; lia|reflexivity].
      pose proof (digits_cons 20 r ltac:(lia)) as N. fold ds in N. destruct ds; [contradiction|]. reflexivity.
Qed.

(** ** SizeInWords *)
Lemma size_in_words_ok n : 0 <= n < 2 ^ 64 -> 32 * (SizeInWords n - 1) < n <= 32 * SizeInWords n.
Proof.
  intros H. unfold SizeInWords. destruct (Z.ltb_spec (2 ^ 64 - 1 - 31) n) as [L|L].
  - change ((2 ^ 64 - 1) / 32 + 1) with (2 ^ 59). lia.
  - unfold u64. rewrite Z.mod_small by lia. pose proof (Z.div_mod (n + 31) 32 ltac:(lia)). pose proof (Z.mod_pos_bound (n + 31) 32 ltac:(lia)). lia.
Qed.
