(** keccak.h computes Keccak-256: one round. *)
From Verif Require Import Base Keccak SpecKeccak.
From Coq Require Import Lia ZArith List Bool.
Import ListNotations.
Open Scope Z_scope.

Definition lane (x : Z) : Prop := 0 <= x < 2 ^ 64.

(** ** Bits of words *)
Lemma bits_lane : forall x, 0 <= x -> (forall i, 64 <= i -> Z.testbit x i = false) -> lane x.
Proof.
  intros x Hx Hb. split; [exact Hx |]. destruct (Z.eq_dec x 0) as [-> | Hn]; [reflexivity |].
  apply Z.log2_lt_pow2; [lia |]. destruct (Z_lt_dec (Z.log2 x) 64) as [L | L]; [exact L |].
  assert (B := Z.bit_log2 x ltac:(lia)). rewrite (Hb (Z.log2 x) ltac:(lia)) in B. discriminate.
Qed.
Lemma lane_high : forall x i, lane x -> 64 <= i -> Z.testbit x i = false.
Proof.
  intros x i [H0 H1] Hi. destruct (Z.eq_dec x 0) as [-> | Hn]; [apply Z.bits_0 |].
  apply Z.bits_above_log2; [lia |]. assert (Z.log2 x < 64) by (apply Z.log2_lt_pow2; lia). lia.
Qed.
Lemma lane_lxor : forall x y, lane x -> lane y -> lane (Z.lxor x y).
Proof.
  intros x y Hx Hy. apply bits_lane. { apply Z.lxor_nonneg. destruct Hx, Hy. lia. }
  intros i Hi. rewrite Z.lxor_spec, (lane_high x), (lane_high y); auto.
Qed.
Lemma lane_land : forall x y, lane x -> lane y -> lane (Z.land x y).
Proof.
  intros x y Hx Hy. apply bits_lane. { apply Z.land_nonneg. destruct Hx. lia. }
  intros i Hi. rewrite Z.land_spec, (lane_high x); auto.
Qed.
Lemma lane_lor : forall x y, lane x -> lane y -> lane (Z.lor x y).
Proof.
  intros x y Hx Hy. apply bits_lane. { apply Z.lor_nonneg. destruct Hx, Hy. lia. }
  intros i Hi. rewrite Z.lor_spec, (lane_high x), (lane_high y); auto.
Qed.
Lemma lane_not : forall x, lane x -> lane (not64 x).
Proof. intros x Hx. apply lane_lxor; [exact Hx |]. split; [discriminate | reflexivity]. Qed.
Lemma lane_u64 : forall x, lane (u64 x).
Proof. intros. apply Z.mod_pos_bound. reflexivity. Qed.
Lemma lane_rol : forall x s, lane x -> 0 <= s <= 64 -> lane (rol x s).
Proof.
  intros x s Hx Hs. apply lane_lor; [apply lane_u64 |]. apply bits_lane. { apply Z.shiftr_nonneg. destruct Hx. lia. }
  intros i Hi. rewrite Z.shiftr_spec by lia. apply lane_high; [exact Hx | lia].
Qed.
Lemma not_bit : forall x i, 0 <= i < 64 -> Z.testbit (not64 x) i = negb (Z.testbit x i).
Proof.
  intros x i Hi. unfold not64. rewrite Z.lxor_spec. change (2 ^ 64 - 1) with (Z.ones 64). rewrite Z.ones_spec_low by lia.
  destruct (Z.testbit x i); reflexivity.
Qed.
Lemma rol_bit : forall x s i, lane x -> 0 < s < 64 -> 0 <= i < 64 -> Z.testbit (rol x s) i = Z.testbit x ((i - s) mod 64).
Proof.
  intros x s i Hx Hs Hi. unfold rol, u64. rewrite Z.lor_spec, Z.mod_pow2_bits_low by lia. rewrite Z.shiftl_spec, Z.shiftr_spec by lia.
  destruct (Z_lt_dec i s) as [L | L].
  - rewrite Z.testbit_neg_r by lia. rewrite orb_false_l. f_equal. apply (Z.mod_unique _ _ (-1)); lia.
  - rewrite (lane_high x (i + (64 - s))) by (exact Hx || lia). rewrite orb_false_r, Z.mod_small by lia. reflexivity.
Qed.

(** ** One round *)
Definition bits_of (s : list Z) : bits := fun x y z => Z.testbit (nth (Z.to_nat (x + 5 * y)) s 0) z.
(** agreement within the state *)
Definition same (A B : bits) : Prop := forall x y z, 0 <= x < 5 -> 0 <= y < 5 -> 0 <= z < 64 -> A x y z = B x y z.
Lemma same_refl : forall A, same A A. Proof. intros A x y z _ _ _. reflexivity. Qed.
Lemma same_trans : forall A B C, same A B -> same B C -> same A C.
Proof. intros A B C H1 H2 x y z Hx Hy Hz. rewrite H1, H2; auto. Qed.
Lemma same_sym : forall A B, same A B -> same B A.
Proof. intros A B H1 x y z Hx Hy Hz. symmetry. auto. Qed.

Lemma column_same : forall A B x z, same A B -> 0 <= x < 5 -> 0 <= z < 64 -> column A x z = column B x z.
Proof. intros A B x z HA Hx Hz. unfold column. rewrite !HA by lia. reflexivity. Qed.
Ltac mods := first [ lia | apply Z.mod_pos_bound; lia ].
Lemma theta_same : forall A B, same A B -> same (theta A) (theta B).
Proof.
  intros A B HA x y z Hx Hy Hz. unfold theta. rewrite (HA x y z) by assumption. f_equal.
  rewrite (column_same A B), (column_same A B ((x + 1) mod 5)); try assumption; try mods. reflexivity.
Qed.
Lemma rho_same : forall A B, same A B -> same (rho A) (rho B).
Proof. intros A B HA x y z Hx Hy Hz. unfold rho. apply HA; mods. Qed.
Lemma pi_same : forall A B, same A B -> same (pi A) (pi B).
Proof. intros A B HA x y z Hx Hy Hz. unfold pi. apply HA; mods. Qed.
Lemma chi_same : forall A B, same A B -> same (chi A) (chi B).
Proof. intros A B HA x y z Hx Hy Hz. unfold chi. rewrite !HA by mods. reflexivity. Qed.
Lemma iota_same : forall r A B, same A B -> same (iota r A) (iota r B).
Proof. intros r A B HA x y z Hx Hy Hz. unfold iota. rewrite HA by assumption. reflexivity. Qed.
Lemma one_round_same : forall r A B, same A B -> same (one_round A r) (one_round B r).
Proof. intros r A B HA. unfold one_round. apply iota_same, chi_same, pi_same, rho_same, theta_same, HA. Qed.

Lemma column_eq : forall A x z, column A x z = xorb (xorb (xorb (xorb (A x 0 z) (A x 1 z)) (A x 2 z)) (A x 3 z)) (A x 4 z).
Proof. intros. unfold column. rewrite !xorb_assoc. reflexivity. Qed.
Lemma rho_eq : forall A x y z, rho A x y z = A x y ((z - offset x y mod 64) mod 64).
Proof. intros. unfold rho. rewrite Zminus_mod_idemp_r. reflexivity. Qed.

Ltac five x := assert (x = 0 \/ x = 1 \/ x = 2 \/ x = 3 \/ x = 4) as [-> | [-> | [-> | [-> | ->]]]] by lia.
Ltac lanes := repeat first [ assumption | apply lane_lxor | apply lane_land | apply lane_not | apply lane_rol; [| lia] ].
Ltac closed_mods :=
  repeat match goal with
  | |- context [Z.modulo ?a 5] => let v := eval vm_compute in (Z.modulo a 5) in change (Z.modulo a 5) with v
  | |- context [Z.modulo (offset ?a ?b) 64] =>
      let v := eval vm_compute in (Z.modulo (offset a b) 64) in change (Z.modulo (offset a b) 64) with v
  end.
Ltac pick := repeat match goal with
  | |- context [bits_of ?l ?x ?y ?z] =>
      let n := eval vm_compute in (Z.to_nat (x + 5 * y)) in
      let v := eval cbn [nth] in (nth n l 0) in
      change (bits_of l x y z) with (Z.testbit v z)
  end.
Ltac bitwise := repeat first
  [ rewrite Z.lxor_spec | rewrite Z.land_spec
  | rewrite not_bit by mods
  | rewrite rol_bit by first [ lia | mods | lanes ] ].

Lemma round_even_ok : forall c r s, length s = 25%nat -> Forall lane s -> (forall z, 0 <= z < 64 -> Z.testbit c z = constant r z) ->
  same (bits_of (round_even c s)) (one_round (bits_of s) r).
Proof.
  intros c r s Hl Hs Hc.
  do 25 (destruct s as [| ? s]; [discriminate Hl |]). destruct s; [| discriminate Hl]. clear Hl.
  repeat match goal with h : Forall lane (_ :: _) |- _ => inversion h; subst; clear h end.
  repeat match goal with h : Forall lane [] |- _ => clear h end.
  intros px py pz Hx Hy Hz. unfold one_round, iota. rewrite <- (Hc pz Hz). clear Hc. unfold chi, pi.
  five px; five py; cbn [Z.eqb andb Pos.eqb]; closed_mods; rewrite !rho_eq; closed_mods; unfold theta; closed_mods; rewrite !column_eq;
  cbv beta zeta iota delta [round_even]; pick; rewrite ?Z.sub_0_r, ?(Z.mod_small pz 64) by exact Hz; bitwise; reflexivity.
Qed.
