(** The converter of the Go interpreter: the long-form code it makes, and where the instructions of the EVM code are in it. *)
From Verif Require Import Base Host SpecEvm MemFacts JumpFacts LfvmCode.
From Coq Require Import Lia ZArith List Bool.
Import ListNotations.
Open Scope Z_scope.

(** bytes packed in twos, big endian; a last single byte is followed by zero *)
Fixpoint pairs (d : list Z) : list Z :=
  match d with
  | a :: b :: r => pack a b :: pairs r
  | [a] => [pack a 0]
  | [] => []
  end.
Lemma pairs_ind (P : list Z -> Prop) : P [] -> (forall a, P [a]) -> (forall a b r, P r -> P (a :: b :: r)) -> forall d, P d.
Proof.
  intros h0 h1 h2. assert (h : forall d, P d /\ forall a, P (a :: d)).
  { induction d as [|x d [ih1 ih2]]; split; auto. }
  intros d. apply h.
Qed.
Lemma pairs_zlen d : zlen (pairs d) = zlen d / 2 + zlen d mod 2.
Proof.
  induction d as [|a|a b r ih] using pairs_ind; [reflexivity|reflexivity|]. cbn [pairs]. rewrite !zlen_cons, ih.
  replace (zlen r + 1 + 1) with (zlen r + 1 * 2) by lia. rewrite Z_div_plus, Z_mod_plus by lia. lia.
Qed.
Lemma unpair a b : is_byte a -> is_byte b -> pack a b / 256 = a /\ pack a b mod 256 = b.
Proof.
  intros ha hb. unfold is_byte, pack in *. split.
  - symmetry. apply Z.div_unique with b; lia.
  - symmetry. apply Z.mod_unique with a; lia.
Qed.
Lemma pairs_back d : Forall is_byte d -> firstn (length d) (flat_map (fun a => [a / 256; a mod 256]) (pairs d)) = d.
Proof.
  induction d as [|a|a b r ih] using pairs_ind; intros hd; [reflexivity| |].
  - inversion hd; subst. cbn. destruct (unpair a 0 ltac:(assumption) ltac:(unfold is_byte; lia)) as [-> _]. reflexivity.
  - inversion hd as [|? ? h1 h2]; subst. inversion h2 as [|? ? h3 h4]; subst. destruct (unpair a b h1 h3) as [e1 e2]. cbn [pairs flat_map app length firstn]. rewrite e1, e2. f_equal. f_equal. auto.
Qed.
Lemma pairs_split k : forall X, (2 * k + 1 <= length X)%nat -> pairs (firstn (2 * k + 1) X) = pairs (firstn (2 * k) X) ++ [pack (nth (2 * k) X 0) 0].
Proof.
  induction k as [|k ih]; intros X h.
  - destruct X as [|x X]; cbn in h; [lia|]. reflexivity.
  - destruct X as [|x [|y X]]; cbn [length] in h; try lia. replace (2 * S k)%nat with (S (S (2 * k))) by lia. cbn [Nat.add firstn pairs nth app]. rewrite ih by lia. reflexivity.
Qed.

Lemma appendOp_ok b op a : b_len b < b_cap b -> appendOp b op a = Ok (mkB ((op, a) :: b_rev b) (b_len b + 1) (b_cap b)).
Proof. intros h. unfold appendOp. destruct (Z.ltb_spec (b_len b) (b_cap b)); [reflexivity|lia]. Qed.
Lemma appendPairs_ok k : forall b data, (2 * k <= length data)%nat -> b_len b + Z.of_nat k <= b_cap b ->
  appendPairs k b data = Ok (mkB (rev (map (pair L_DATA) (pairs (firstn (2 * k) data))) ++ b_rev b) (b_len b + Z.of_nat k) (b_cap b)).
Proof.
  induction k as [|k ih]; intros b data hl hc.
  - cbn. rewrite Z.add_0_r. destruct b; reflexivity.
  - destruct data as [|x [|y data]]; cbn [length] in hl; try lia. replace (2 * S k)%nat with (S (S (2 * k))) by lia.
    cbn [appendPairs firstn pairs map rev]. unfold appendData. rewrite appendOp_ok by lia. cbn [rbind]. rewrite ih by (cbn [b_len b_cap]; lia).
    cbn [b_rev b_len b_cap]. rewrite <- app_assoc. cbn [app]. do 2 f_equal. lia.
Qed.

Lemma skipn_skipn' {A} x : forall y (l : list A), skipn x (skipn y l) = skipn (y + x) l.
Proof. induction y as [|y ih]; intros [|a l]; cbn [skipn Nat.add]; auto. destruct x; reflexivity. Qed.

Section Conv.
Variable super : bool.
Variable code : list Z.
Hypothesis Hcode : Forall is_byte code.
Notation size := (zlen code).

(** what a single instruction becomes *)
Definition entries (i b : Z) : lcode :=
  if b =? 0x58 then [(0x58, i)]
  else if (0x60 <=? b) && (b <=? 0x7F) then
    match pairs (data_bytes code (i + 1) (push_len b)) with a :: t => (b, a) :: map (pair L_DATA) t | [] => [] end
  else [(b, 0)].

Lemma rest_at i k : 0 <= i -> byte_at (skipn (Z.to_nat i) code) k = code_at code (i + Z.of_nat k).
Proof.
  intros hi. unfold byte_at, code_at. rewrite data_at_nth by lia. rewrite nth_skipn'. f_equal. lia.
Qed.
Lemma push_data_ok i n : 0 <= i < size -> 1 <= n ->
  forall data, data = (if 0 <? i + n + 2 - size then firstn (Z.to_nat (n + 1)) (skipn 1 (skipn (Z.to_nat i) code) ++ zeros (n + 1)) else firstn (Z.to_nat n) (skipn 1 (skipn (Z.to_nat i) code))) ->
  firstn (Z.to_nat n) data = data_bytes code (i + 1) n /\ (Z.to_nat n <= length data)%nat.
Proof.
  intros hi hn data ->.
  assert (e1 : skipn 1 (skipn (Z.to_nat i) code) = skipn (Z.to_nat (i + 1)) code) by (rewrite skipn_skipn'; f_equal; lia). rewrite e1.
  pose proof (zlen_skipn (i + 1) code ltac:(lia)) as hz. pose proof (zlen_zeros (n + 1)) as hz0.
  destruct (Z.ltb_spec 0 (i + n + 2 - size)).
  - split.
    + apply list_data_ext.
      * rewrite data_bytes_zlen, !zlen_firstn, zlen_app by lia. lia.
      * rewrite !zlen_firstn, zlen_app by lia. intros j hj. rewrite !data_at_firstn by lia. rewrite data_at_app by lia. rewrite data_at_zeros, data_at_skipn by lia.
        rewrite data_bytes_read, read_bytes_at by lia. destruct (Z.ltb_spec j n); [|lia]. destruct (Z.ltb_spec j (n + 1)); [|lia].
        destruct (Z.ltb_spec j (zlen (skipn (Z.to_nat (i + 1)) code))); [reflexivity|]. rewrite data_at_out by lia. reflexivity.
    + assert (zlen (firstn (Z.to_nat (n + 1)) (skipn (Z.to_nat (i + 1)) code ++ zeros (n + 1))) >= n) by (rewrite zlen_firstn, zlen_app by lia; lia). unfold zlen in *. lia.
  - split.
    + apply list_data_ext.
      * rewrite data_bytes_zlen, !zlen_firstn by lia. lia.
      * rewrite !zlen_firstn by lia. intros j hj. rewrite !data_at_firstn by lia. rewrite data_at_skipn by lia.
        rewrite data_bytes_read, read_bytes_at by lia. destruct (Z.ltb_spec j n); [reflexivity|lia].
    + assert (zlen (firstn (Z.to_nat n) (skipn (Z.to_nat (i + 1)) code)) >= n) by (rewrite zlen_firstn by lia; lia). unfold zlen in *. lia.
Qed.

Lemma plain_ok b i : 0 <= i < size -> b_len b <= i -> size <= b_cap b -> i <= 65535 ->
  (if super then appendSuperInstructions b (skipn (Z.to_nat i) code) else Ok (b, 0)) = Ok (b, 0) ->
  exists cap, size <= cap /\ let e := entries i (code_at code i) in
  appendInstructions super b i (skipn (Z.to_nat i) code) size = Ok (mkB (rev e ++ b_rev b) (b_len b + zlen e) cap, push_len (code_at code i)).
Proof.
  intros hi hl hc h16 hs. cbv zeta. unfold appendInstructions. rewrite hs. cbn [rbind]. change (0 <? 0) with false. cbv iota.
  rewrite rest_at by lia. change (Z.of_nat 0) with 0. rewrite Z.add_0_r. set (op := code_at code i). unfold entries, push_len.
  destruct (Z.eqb_spec op 0x58) as [e58|n58].
  { rewrite e58. change ((96 <=? 88) && (88 <=? 127)) with false. cbv iota. destruct (Z.ltb_spec (2 ^ 16 - 1) i); [lia|]. rewrite appendOp_ok by lia. cbn [rbind]. exists (b_cap b). split; [lia|].
    unfold u16. rewrite Z.mod_small by lia. reflexivity. }
  destruct ((96 <=? op) && (op <=? 127)) eqn:ep.
  2:{ unfold appendCode. rewrite appendOp_ok by lia. cbn [rbind]. exists (b_cap b). split; [lia|reflexivity]. }
  apply andb_prop in ep. destruct ep as [ep1 ep2]. apply Z.leb_le in ep1, ep2.
  set (n := op - 0x60 + 1). assert (hn : 1 <= n <= 32) by (unfold n; lia). replace (op - 95) with n by (unfold n; lia).
  pose proof (push_data_ok i n hi ltac:(lia) _ eq_refl) as [hd hlen].
  set (data := if 0 <? i + n + 2 - size then _ else _) in hd, hlen.
  set (cap := if 0 <? i + n + 2 - size then b_cap b + (i + n + 2 - size + 1) / 2 else b_cap b).
  replace (if 0 <? i + n + 2 - size then (mkB (b_rev b) (b_len b) (b_cap b + (i + n + 2 - size + 1) / 2), firstn (Z.to_nat (n + 1)) (skipn 1 (skipn (Z.to_nat i) code) ++ zeros (n + 1)))
    else (b, firstn (Z.to_nat n) (skipn 1 (skipn (Z.to_nat i) code)))) with (mkB (b_rev b) (b_len b) cap, data).
  2:{ unfold cap, data. destruct (0 <? i + n + 2 - size); [reflexivity|]. destruct b; reflexivity. }
  assert (hcap : size <= cap /\ b_len b + (n / 2 + n mod 2) <= cap).
  { unfold cap. destruct (Z.ltb_spec 0 (i + n + 2 - size)).
    - pose proof (Z.div_mod (i + n + 2 - size + 1) 2 ltac:(lia)). pose proof (Z.mod_pos_bound (i + n + 2 - size + 1) 2 ltac:(lia)).
      pose proof (Z.div_mod n 2 ltac:(lia)). pose proof (Z.mod_pos_bound n 2 ltac:(lia)). lia.
    - pose proof (Z.div_mod n 2 ltac:(lia)). pose proof (Z.mod_pos_bound n 2 ltac:(lia)). lia. }
  exists cap. split; [lia|]. cbv zeta. rewrite <- hd.
  assert (E : n = 1 \/ 1 < n) by lia. destruct E as [en|hn2].
  - rewrite en in *. destruct data as [|d0 data]; [cbn in hlen; lia|]. cbn [Z.eqb Pos.eqb]. rewrite appendOp_ok by (cbn [b_len b_cap]; cbn in hcap; lia). cbn [rbind].
    change (Z.to_nat ((1 - 2) / 2)) with 0%nat. cbn [appendPairs rbind Z.ltb Z.compare Pos.compare Pos.compare_cont andb]. change (Z.to_nat 1) with 1%nat.
    cbn [firstn pairs map rev app b_rev b_len b_cap byte_at nth]. replace op with 0x60 by (unfold n in en; lia). reflexivity.
  - destruct (Z.eqb_spec n 1) as [?|_]; [lia|]. destruct data as [|d0 [|d1 data]]; [cbn in hlen; lia|cbn in hlen; lia|].
    pose proof (Z.div_mod n 2 ltac:(lia)) as hdm. pose proof (Z.mod_pos_bound n 2 ltac:(lia)) as hmb.
    rewrite appendOp_ok by (cbn [b_len b_cap]; lia). cbn [rbind b_rev b_len b_cap skipn byte_at nth].
    assert (ek : (n - 2) / 2 = n / 2 - 1). { replace (n - 2) with (n + (-1) * 2) by lia. rewrite Z_div_plus by lia. lia. }
    set (k := Z.to_nat ((n - 2) / 2)). assert (hk : n = 2 * Z.of_nat k + 2 + n mod 2) by (unfold k; rewrite ek; lia).
    assert (hdl : (Z.to_nat n - 2 <= length data)%nat) by (cbn [length] in hlen; lia).
    rewrite appendPairs_ok by (cbn [b_len b_cap]; lia). cbn [rbind b_rev b_len b_cap].
    replace (firstn (Z.to_nat n) (d0 :: d1 :: data)) with (d0 :: d1 :: firstn (Z.to_nat n - 2) data) by (replace (Z.to_nat n) with (S (S (Z.to_nat n - 2))) at 2 by lia; reflexivity).
    cbn [pairs]. replace (1 <? n) with true by (symmetry; apply Z.ltb_lt; lia). cbn [andb].
    destruct (Z.eqb_spec (n mod 2) 1) as [eo|ee].
    + unfold appendData. rewrite appendOp_ok by (cbn [b_len b_cap]; lia). cbn [rbind b_rev b_len b_cap].
      replace (Z.to_nat n - 2)%nat with (2 * k + 1)%nat by lia. rewrite pairs_split by lia. rewrite map_app. cbn [map rev]. rewrite rev_app_distr. cbn [rev app].
      replace (Z.to_nat (n - 1)) with (S (S (2 * k))) by lia. cbn [nth]. rewrite <- !app_assoc. cbn [app].
      rewrite zlen_cons, zlen_app. replace (zlen (map (pair L_DATA) (pairs (firstn (2 * k) data)))) with (Z.of_nat k).
      2:{ unfold zlen. rewrite map_length. change (Z.of_nat (length (pairs (firstn (2 * k) data)))) with (zlen (pairs (firstn (2 * k) data))). rewrite pairs_zlen.
          unfold zlen. rewrite firstn_length_le by lia. replace (Z.of_nat (2 * k)) with (Z.of_nat k * 2) by lia. rewrite Z_div_mult, Z_mod_mult by lia. lia. }
      change (zlen [(L_DATA, pack (nth (2 * k) data 0) 0)]) with 1. do 2 f_equal. f_equal. lia.
    + replace (Z.to_nat n - 2)%nat with (2 * k)%nat by lia. cbn [map rev]. rewrite <- !app_assoc. cbn [app].
      rewrite zlen_cons. replace (zlen (map (pair L_DATA) (pairs (firstn (2 * k) data)))) with (Z.of_nat k).
      2:{ unfold zlen. rewrite map_length. change (Z.of_nat (length (pairs (firstn (2 * k) data)))) with (zlen (pairs (firstn (2 * k) data))). rewrite pairs_zlen.
          unfold zlen. rewrite firstn_length_le by lia. replace (Z.of_nat (2 * k)) with (Z.of_nat k * 2) by lia. rewrite Z_div_mult, Z_mod_mult by lia. lia. }
      cbn [rbind]. do 2 f_equal. f_equal. lia. 
Qed.

(** ** Super instructions *)
(** what appendSuperInstructions makes of the bytes at a position: the long-form instructions and the number of bytes skipped *)
Definition super_of (rest : list Z) : option (lcode * Z) :=
  let n := zlen rest in
  let op := byte_at rest in
  let is k v := op k =? v in
  if (7 <? n) && is 0%nat 0x60 && is 2%nat 0x63 && is 7%nat 0x82 then
    Some ([(L_PUSH1_PUSH4_DUP3, pack (op 1%nat) 0); (L_DATA, pack (op 3%nat) (op 4%nat)); (L_DATA, pack (op 5%nat) (op 6%nat))], 7)
  else if (7 <? n) && is 0%nat 0x60 && is 2%nat 0x60 && is 4%nat 0x60 && is 6%nat 0x1B && is 7%nat 0x03 then
    Some ([(L_PUSH1_PUSH1_PUSH1_SHL_SUB, pack (op 1%nat) (op 3%nat)); (L_DATA, op 5%nat)], 7)
  else if (4 <? n) && is 0%nat 0x16 && is 1%nat 0x90 && is 2%nat 0x50 && is 3%nat 0x91 && is 4%nat 0x90 then Some ([(L_AND_SWAP1_POP_SWAP2_SWAP1, 0)], 4)
  else if (4 <? n) && is 0%nat 0x15 && is 1%nat 0x61 && is 4%nat 0x57 then Some ([(L_ISZERO_PUSH2_JUMPI, pack (op 2%nat) (op 3%nat))], 4)
  else if (3 <? n) && is 0%nat 0x91 && is 1%nat 0x90 && is 2%nat 0x50 && is 3%nat 0x56 then Some ([(L_SWAP2_SWAP1_POP_JUMP, 0)], 3)
  else if (3 <? n) && is 0%nat 0x90 && is 1%nat 0x50 && is 2%nat 0x91 && is 3%nat 0x90 then Some ([(L_SWAP1_POP_SWAP2_SWAP1, 0)], 3)
  else if (3 <? n) && is 0%nat 0x50 && is 1%nat 0x91 && is 2%nat 0x90 && is 3%nat 0x50 then Some ([(L_POP_SWAP2_SWAP1_POP, 0)], 3)
  else if (3 <? n) && is 0%nat 0x61 && is 3%nat 0x56 then Some ([(L_PUSH2_JUMP, pack (op 1%nat) (op 2%nat))], 3)
  else if (3 <? n) && is 0%nat 0x61 && is 3%nat 0x57 then Some ([(L_PUSH2_JUMPI, pack (op 1%nat) (op 2%nat))], 3)
  else if (3 <? n) && is 0%nat 0x60 && is 2%nat 0x60 then Some ([(L_PUSH1_PUSH1, pack (op 1%nat) (op 3%nat))], 3)
  else if (2 <? n) && is 0%nat 0x60 && is 2%nat 0x01 then Some ([(L_PUSH1_ADD, op 1%nat)], 2)
  else if (2 <? n) && is 0%nat 0x60 && is 2%nat 0x1B then Some ([(L_PUSH1_SHL, op 1%nat)], 2)
  else if (2 <? n) && is 0%nat 0x60 && is 2%nat 0x80 then Some ([(L_PUSH1_DUP1, op 1%nat)], 2)
  else if (1 <? n) && is 0%nat 0x90 && is 1%nat 0x50 then Some ([(L_SWAP1_POP, 0)], 1)
  else if (1 <? n) && is 0%nat 0x50 && is 1%nat 0x56 then Some ([(L_POP_JUMP, 0)], 1)
  else if (1 <? n) && is 0%nat 0x50 && is 1%nat 0x50 then Some ([(L_POP_POP, 0)], 1)
  else if (1 <? n) && is 0%nat 0x91 && is 1%nat 0x90 then Some ([(L_SWAP2_SWAP1, 0)], 1)
  else if (1 <? n) && is 0%nat 0x91 && is 1%nat 0x50 then Some ([(L_SWAP2_POP, 0)], 1)
  else if (1 <? n) && is 0%nat 0x81 && is 1%nat 0x52 then Some ([(L_DUP2_MSTORE, 0)], 1)
  else if (1 <? n) && is 0%nat 0x81 && is 1%nat 0x10 then Some ([(L_DUP2_LT, 0)], 1)
  else None.
Lemma super_ok b rest : b_len b + zlen rest <= b_cap b ->
  appendSuperInstructions b rest = match super_of rest with
  | Some (e, n) => Ok (mkB (rev e ++ b_rev b) (b_len b + zlen e) (b_cap b), n)
  | None => Ok (b, 0) end.
Proof.
  intros hc. unfold appendSuperInstructions, super_of, appendCode, appendData. cbv zeta.
  Ltac app3 b := repeat (rewrite appendOp_ok by (cbn [b_len b_cap]; lia); cbn [rbind b_rev b_len b_cap]); cbn [rev app];
    match goal with |- Ok (mkB _ ?x _, _) = Ok (mkB _ (_ + zlen ?l) _, _) => let k := eval vm_compute in (length l) in replace x with (b_len b + Z.of_nat k) by (cbn [Z.of_nat Pos.of_succ_nat Pos.succ]; lia) end; reflexivity.
  repeat match goal with |- (if ?x && ?y then _ else _) = _ => destruct (x && y) eqn:?E;
    [repeat match goal with h : _ && _ = true |- _ => apply andb_prop in h; destruct h end; repeat match goal with h : (_ <? zlen rest) = true |- _ => apply Z.ltb_lt in h end; app3 b|match goal with h : _ = false |- _ => clear h end] end.
  reflexivity.
Qed.

(** the groups of instructions that become one, in the code *)
Notation at_ := (code_at code).
Inductive group (i : Z) : lcode -> Z -> Prop :=
| g_push1_push4_dup3 : i + 7 < size -> at_ i = 0x60 -> at_ (i + 2) = 0x63 -> at_ (i + 7) = 0x82 ->
    group i [(L_PUSH1_PUSH4_DUP3, pack (at_ (i + 1)) 0); (L_DATA, pack (at_ (i + 3)) (at_ (i + 4))); (L_DATA, pack (at_ (i + 5)) (at_ (i + 6)))] 7
| g_push1_push1_push1_shl_sub : i + 7 < size -> at_ i = 0x60 -> at_ (i + 2) = 0x60 -> at_ (i + 4) = 0x60 -> at_ (i + 6) = 0x1B -> at_ (i + 7) = 0x03 ->
    group i [(L_PUSH1_PUSH1_PUSH1_SHL_SUB, pack (at_ (i + 1)) (at_ (i + 3))); (L_DATA, at_ (i + 5))] 7
| g_and_swap1_pop_swap2_swap1 : i + 4 < size -> at_ i = 0x16 -> at_ (i + 1) = 0x90 -> at_ (i + 2) = 0x50 -> at_ (i + 3) = 0x91 -> at_ (i + 4) = 0x90 ->
    group i [(L_AND_SWAP1_POP_SWAP2_SWAP1, 0)] 4
| g_iszero_push2_jumpi : i + 4 < size -> at_ i = 0x15 -> at_ (i + 1) = 0x61 -> at_ (i + 4) = 0x57 -> group i [(L_ISZERO_PUSH2_JUMPI, pack (at_ (i + 2)) (at_ (i + 3)))] 4
| g_swap2_swap1_pop_jump : i + 3 < size -> at_ i = 0x91 -> at_ (i + 1) = 0x90 -> at_ (i + 2) = 0x50 -> at_ (i + 3) = 0x56 -> group i [(L_SWAP2_SWAP1_POP_JUMP, 0)] 3
| g_swap1_pop_swap2_swap1 : i + 3 < size -> at_ i = 0x90 -> at_ (i + 1) = 0x50 -> at_ (i + 2) = 0x91 -> at_ (i + 3) = 0x90 -> group i [(L_SWAP1_POP_SWAP2_SWAP1, 0)] 3
| g_pop_swap2_swap1_pop : i + 3 < size -> at_ i = 0x50 -> at_ (i + 1) = 0x91 -> at_ (i + 2) = 0x90 -> at_ (i + 3) = 0x50 -> group i [(L_POP_SWAP2_SWAP1_POP, 0)] 3
| g_push2_jump : i + 3 < size -> at_ i = 0x61 -> at_ (i + 3) = 0x56 -> group i [(L_PUSH2_JUMP, pack (at_ (i + 1)) (at_ (i + 2)))] 3
| g_push2_jumpi : i + 3 < size -> at_ i = 0x61 -> at_ (i + 3) = 0x57 -> group i [(L_PUSH2_JUMPI, pack (at_ (i + 1)) (at_ (i + 2)))] 3
| g_push1_push1 : i + 3 < size -> at_ i = 0x60 -> at_ (i + 2) = 0x60 -> group i [(L_PUSH1_PUSH1, pack (at_ (i + 1)) (at_ (i + 3)))] 3
| g_push1_add : i + 2 < size -> at_ i = 0x60 -> at_ (i + 2) = 0x01 -> group i [(L_PUSH1_ADD, at_ (i + 1))] 2
| g_push1_shl : i + 2 < size -> at_ i = 0x60 -> at_ (i + 2) = 0x1B -> group i [(L_PUSH1_SHL, at_ (i + 1))] 2
| g_push1_dup1 : i + 2 < size -> at_ i = 0x60 -> at_ (i + 2) = 0x80 -> group i [(L_PUSH1_DUP1, at_ (i + 1))] 2
| g_swap1_pop : i + 1 < size -> at_ i = 0x90 -> at_ (i + 1) = 0x50 -> group i [(L_SWAP1_POP, 0)] 1
| g_pop_jump : i + 1 < size -> at_ i = 0x50 -> at_ (i + 1) = 0x56 -> group i [(L_POP_JUMP, 0)] 1
| g_pop_pop : i + 1 < size -> at_ i = 0x50 -> at_ (i + 1) = 0x50 -> group i [(L_POP_POP, 0)] 1
| g_swap2_swap1 : i + 1 < size -> at_ i = 0x91 -> at_ (i + 1) = 0x90 -> group i [(L_SWAP2_SWAP1, 0)] 1
| g_swap2_pop : i + 1 < size -> at_ i = 0x91 -> at_ (i + 1) = 0x50 -> group i [(L_SWAP2_POP, 0)] 1
| g_dup2_mstore : i + 1 < size -> at_ i = 0x81 -> at_ (i + 1) = 0x52 -> group i [(L_DUP2_MSTORE, 0)] 1
| g_dup2_lt : i + 1 < size -> at_ i = 0x81 -> at_ (i + 1) = 0x10 -> group i [(L_DUP2_LT, 0)] 1.
Lemma super_group i e n : 0 <= i < size -> super_of (skipn (Z.to_nat i) code) = Some (e, n) -> group i e n.
Proof.
  intros hi. unfold super_of. cbv zeta. rewrite !rest_at by lia. cbn [Z.of_nat Pos.of_succ_nat Pos.succ]. rewrite Z.add_0_r. rewrite zlen_skipn by lia. rewrite Z.max_r by lia.
  repeat match goal with |- (if ?x && ?y then _ else _) = _ -> _ => destruct (x && y) eqn:?E;
    [repeat match goal with h : _ && _ = true |- _ => apply andb_prop in h; destruct h end;
     repeat match goal with h : (_ <? _) = true |- _ => apply Z.ltb_lt in h | h : (_ =? _) = true |- _ => apply Z.eqb_eq in h end;
     let h := fresh in intros h; injection h as <- <-; constructor; first [assumption|lia]|clear E] end.
  discriminate.
Qed.
(** instructions in a row, none of them a jump destination *)
Inductive walk : Z -> list Z -> Z -> Prop :=
| walk_nil i : walk i [] i
| walk_cons i b bs j : i < size -> at_ i = b -> b <> 0x5B -> walk (i + 1 + push_len b) bs j -> walk i (b :: bs) j.
Lemma walk_start i bs j : walk i bs j -> instr_start code i -> instr_start code j.
Proof. induction 1 as [|i b bs j h1 h2 h3 h4 ih]; intros hs; [assumption|]. apply ih. rewrite <- h2. apply start_next; assumption. Qed.
Lemma walk_none i bs j d : walk i bs j -> instr_start code i -> jumpdest code d -> i <= d -> j <= d.
Proof.
  induction 1 as [|i b bs j h1 h2 h3 h4 ih]; intros hs hd hle; [assumption|]. pose proof hd as (d1 & d2 & d3).
  assert (hne : i <> d) by (intros ->; congruence). apply ih; [rewrite <- h2; apply start_next; assumption|assumption|].
  pose proof (start_gap code d d1 i hs ltac:(lia)) as X. rewrite h2 in X. lia.
Qed.
Lemma group_walk i e n : group i e n -> exists op a t, e = (op, a) :: map (pair L_DATA) t /\ walk i (decompose op) (i + n + 1) /\ 0x103 <= op /\ zlen e <= n + 1 /\ 1 <= n /\ i + n < size /\ at_ i <> 0x5B.
Proof.
  intros h. destruct h.
  Ltac walks := repeat (apply walk_cons; [cbn; lia|match goal with h : code_at _ ?a = _ |- code_at _ ?b = _ => refine (eq_trans (f_equal (code_at _) (_ : b = a)) h); clear; cbn; lia end|discriminate|]);
    match goal with |- walk ?a [] ?b => let h := fresh in assert (h : b = a) by (cbn; lia); rewrite h; apply walk_nil end.
  1: exists L_PUSH1_PUSH4_DUP3. 2: exists L_PUSH1_PUSH1_PUSH1_SHL_SUB. 3: exists L_AND_SWAP1_POP_SWAP2_SWAP1. 4: exists L_ISZERO_PUSH2_JUMPI.
  5: exists L_SWAP2_SWAP1_POP_JUMP. 6: exists L_SWAP1_POP_SWAP2_SWAP1. 7: exists L_POP_SWAP2_SWAP1_POP. 8: exists L_PUSH2_JUMP. 9: exists L_PUSH2_JUMPI. 10: exists L_PUSH1_PUSH1.
  11: exists L_PUSH1_ADD. 12: exists L_PUSH1_SHL. 13: exists L_PUSH1_DUP1. 14: exists L_SWAP1_POP. 15: exists L_POP_JUMP. 16: exists L_POP_POP. 17: exists L_SWAP2_SWAP1.
  18: exists L_SWAP2_POP. 19: exists L_DUP2_MSTORE. 20: exists L_DUP2_LT.
  1: eexists; exists [pack (at_ (i + 3)) (at_ (i + 4)); pack (at_ (i + 5)) (at_ (i + 6))]. 2: eexists; exists [at_ (i + 5)]. 3-20: eexists; exists [].
  all: (split; [reflexivity|]); (split; [match goal with |- walk _ ?d _ => let d' := eval vm_compute in d in change d with d' end; walks|]); (split; [vm_compute; discriminate|]); (split; [vm_compute; discriminate|]); (split; [lia|]); (split; [lia|]); congruence.
Qed.

(** ** Instructions are only ever added at the end *)
Definition ext (b b' : builder) : Prop := exists xs, b_rev b' = xs ++ b_rev b.
Lemma ext_refl b : ext b b.
Proof. exists []. reflexivity. Qed.
Lemma ext_trans b1 b2 b3 : ext b1 b2 -> ext b2 b3 -> ext b1 b3.
Proof. intros [x e1] [y e2]. exists (y ++ x). rewrite e2, e1, app_assoc. reflexivity. Qed.
Lemma ext_op b op a b' : appendOp b op a = Ok b' -> ext b b'.
Proof. unfold appendOp. destruct (_ <? _); [|discriminate]. intros h. injection h as <-. exists [(op, a)]. reflexivity. Qed.
Lemma ext_pad b pos b' : padNoOpsUntil b pos = Ok b' -> ext b b'.
Proof. unfold padNoOpsUntil. destruct (_ <? _); [discriminate|]. destruct (_ <? _); [discriminate|]. intros h. injection h as <-. eexists. reflexivity. Qed.
Lemma ext_pairs k : forall b data b', appendPairs k b data = Ok b' -> ext b b'.
Proof.
  induction k as [|k ih]; intros b data b'; cbn [appendPairs].
  - destruct data as [|? [|? ?]]; intros h; injection h as <-; apply ext_refl.
  - destruct data as [|x [|y data]]; try (intros h; injection h as <-; apply ext_refl). unfold appendData. destruct (appendOp b L_DATA (pack x y)) as [b1| |] eqn:e; cbn [rbind]; try discriminate.
    intros h. apply ext_trans with b1; [eapply ext_op; eauto|eauto].
Qed.
Lemma bind_ok {A B} (x : res A) (k : A -> res B) r : rbind x k = Ok r -> exists a, x = Ok a /\ k a = Ok r.
Proof. destruct x; cbn; try discriminate. eauto. Qed.
Lemma ext_super b rest b' n : appendSuperInstructions b rest = Ok (b', n) -> ext b b'.
Proof.
  unfold appendSuperInstructions, appendCode, appendData. cbv zeta. intros h.
  repeat match type of h with (if ?c then _ else _) = _ => destruct c end.
  all: repeat match goal with h : rbind _ _ = Ok _ |- _ => apply bind_ok in h; let b := fresh "b" in let e := fresh "e" in destruct h as (b & e & h); apply ext_op in e end.
  all: match goal with h : Ok _ = Ok _ |- _ => injection h as <- <- end.
  all: eauto using ext_refl, ext_trans.
Qed.
Lemma ext_instr b i rest b' n : appendInstructions super b i rest size = Ok (b', n) -> ext b b'.
Proof.
  unfold appendInstructions. intros h. apply bind_ok in h. destruct h as ([b1 n1] & e1 & h).
  apply ext_trans with b1. { destruct super; [eapply ext_super; eauto|injection e1 as <- <-; apply ext_refl]. }
  revert h. destruct (0 <? n1); [intros h; injection h as <- <-; apply ext_refl|]. unfold appendCode.
  destruct (byte_at rest 0 =? 88).
  - destruct (_ <? i); intros h; apply bind_ok in h; destruct h as (b2 & e2 & h); injection h as <- <-; eapply ext_op; eauto.
  - destruct ((96 <=? byte_at rest 0) && (byte_at rest 0 <=? 127)).
    + match goal with |- context [if 0 <? ?m then (mkB ?x ?y ?z, ?d1) else (?b, ?d2)] => set (cond := 0 <? m); set (dd1 := d1); set (dd2 := d2); set (zz := z) end. cbv zeta. intros h.
      assert (e : exists b3 data, (if cond then (mkB (b_rev b1) (b_len b1) zz, dd1) else (b1, dd2)) = (b3, data) /\ ext b1 b3).
      { destruct cond; eexists; eexists; (split; [reflexivity|]); exists []; reflexivity. }
      destruct e as (b3 & data & e3 & he). rewrite e3 in h. apply ext_trans with b3; [exact he|].
      apply bind_ok in h. destruct h as (b4 & e4 & h). apply ext_trans with b4. { destruct (_ =? 1); eapply ext_op; eauto. }
      apply bind_ok in h. destruct h as (b5 & e5 & h). apply ext_trans with b5. { eapply ext_pairs; eauto. }
      apply bind_ok in h. destruct h as (b6 & e6 & h). injection h as <- <-.
      destruct ((1 <? _) && _); [eapply ext_op; eauto|injection e6 as <-; apply ext_refl].
    + intros h; apply bind_ok in h; destruct h as (b2 & e2 & h); injection h as <- <-; eapply ext_op; eauto.
Qed.
Lemma convert_loop_ext fuel : forall rest i b lc, convert_loop fuel super size rest i b = Ok lc -> exists t, lc = rev (b_rev b) ++ t.
Proof.
  induction fuel as [|fuel ih]; intros rest i b lc; cbn [convert_loop].
  - destruct rest; [|discriminate]. intros h. injection h as <-. exists []. rewrite toCode_rev, app_nil_r. reflexivity.
  - destruct rest as [|x rest]; [intros h; injection h as <-; exists []; rewrite toCode_rev, app_nil_r; reflexivity|].
    assert (w : forall b', ext b b' -> (exists t, lc = rev (b_rev b') ++ t) -> exists t, lc = rev (b_rev b) ++ t).
    { intros b' [xs e] [t ->]. rewrite e, rev_app_distr. exists (rev xs ++ t). rewrite app_assoc. reflexivity. }
    destruct (x =? 91).
    + intros h. apply bind_ok in h. destruct h as (b1 & e1 & h). apply bind_ok in h. destruct h as (b2 & e2 & h). apply bind_ok in h. destruct h as (b3 & e3 & h).
      apply (w b3); [|eauto]. apply ext_trans with b1; [destruct (_ <? _); [eapply ext_op; eauto|injection e1 as <-; apply ext_refl]|].
      apply ext_trans with b2; [eapply ext_pad; eauto|]. eapply ext_op; unfold appendCode in e3; eauto.
    + intros h. apply bind_ok in h. destruct h as ([b1 n] & e1 & h). apply (w b1); [eapply ext_instr; eauto|eauto].
Qed.

(** ** Positions *)
(** the super instruction made at position [i], if any *)
Definition grouped (i : Z) : option (lcode * Z) := if super then super_of (skipn (Z.to_nat i) code) else None.
(** how the loop of the converter moves through the code: from position [i], with [q] instructions written and the positions
    [o] reported, latest first *)
Definition pos_next (s : Z * Z * list (Z * Z)) : Z * Z * list (Z * Z) :=
  let '(i, q, o) := s in
  if i <? size then
    if code_at code i =? 0x5B then (i + 1, i + 1, (i, i) :: o)
    else match grouped i with
         | Some (e, n) => (i + n + 1, q + zlen e, (i, q) :: o)
         | None => (i + 1 + push_len (code_at code i), q + zlen (entries i (code_at code i)), (i, q) :: o)
         end
  else s.
Definition pos_at (n : nat) : Z * Z * list (Z * Z) := Nat.iter n pos_next (0, 0, []).
Lemma pos_succ n : pos_at (S n) = pos_next (pos_at n). Proof. reflexivity. Qed.
Variable lc : lcode.
Record located (i q : Z) : Prop := mkLocated {
  lo_i : 0 <= i; lo_q : 0 <= q; lo_le : q <= i; lo_in : q <= zlen lc;
  lo_pos : exists n, fst (pos_at n) = (i, q);
  lo_loop : exists fuel cap, size <= cap /\ convert_loop fuel super size (skipn (Z.to_nat i) code) i (mkB (rev (firstn (Z.to_nat q) lc)) q cap) = Ok lc }.

Lemma lc_prefix xs q t : 0 <= q <= zlen lc -> lc = rev (xs ++ rev (firstn (Z.to_nat q) lc)) ++ t ->
  firstn (Z.to_nat (q + zlen xs)) lc = firstn (Z.to_nat q) lc ++ rev xs /\ slice lc q (zlen xs) = rev xs /\ q + zlen xs <= zlen lc.
Proof.
  intros hq e. rewrite rev_app_distr, rev_involutive, <- app_assoc in e. set (pre := firstn (Z.to_nat q) lc) in *.
  assert (hp : length pre = Z.to_nat q) by (unfold pre; apply firstn_length_le; unfold zlen in hq; lia).
  assert (hx : length (rev xs) = Z.to_nat (zlen xs)) by (rewrite rev_length; unfold zlen; lia).
  pose proof (zlen_nonneg xs). repeat split.
  - rewrite e. replace (Z.to_nat (q + zlen xs)) with (length (pre ++ rev xs)) by (rewrite app_length; lia). rewrite app_assoc, firstn_app, Nat.sub_diag, firstn_all. cbn. apply app_nil_r.
  - unfold slice. rewrite e. rewrite skipn_app, skipn_all2 by lia. replace (Z.to_nat q - length pre)%nat with 0%nat by lia. cbn [skipn app]. rewrite <- hx. rewrite firstn_app, Nat.sub_diag, firstn_all. cbn. apply app_nil_r.
  - rewrite e, !zlen_app. replace (zlen (rev xs)) with (zlen xs) by (unfold zlen; rewrite rev_length; reflexivity). unfold zlen at 2. rewrite hp. pose proof (zlen_nonneg t). lia.
Qed.
Lemma located_end i q : located i q -> size <= i -> q = zlen lc.
Proof.
  intros [h1 h2 h3 h4 [np hnp] (fuel & cap & hc & h)] hi. rewrite skipn_all2 in h by (unfold zlen in hi; lia).
  assert (e : lc = toCode (mkB (rev (firstn (Z.to_nat q) lc)) q cap)) by (destruct fuel; cbn [convert_loop] in h; congruence).
  rewrite toCode_rev in e. cbn [b_rev] in e. rewrite rev_involutive in e. assert (hz : zlen lc = zlen (firstn (Z.to_nat q) lc)) by congruence. rewrite zlen_firstn in hz by lia. lia.
Qed.
Lemma skipn_cons i : 0 <= i < size -> skipn (Z.to_nat i) code = code_at code i :: skipn (Z.to_nat (i + 1)) code.
Proof.
  intros hi. replace (Z.to_nat (i + 1)) with (S (Z.to_nat i)) by lia. unfold code_at. rewrite data_at_nth by lia.
  assert (h : (Z.to_nat i < length code)%nat) by (unfold zlen in hi; lia). clear hi. generalize dependent (Z.to_nat i). intros n. revert n. clear. induction code as [|x l ih]; intros n h; [cbn in h; lia|].
  destruct n; [reflexivity|]. cbn [skipn nth]. cbn in h. rewrite ih by lia. reflexivity.
Qed.
Lemma located_jumpdest i q : located i q -> i < size -> i <= 65535 -> code_at code i = 0x5B ->
  (q < i -> slice lc q 1 = [(L_JUMP_TO, i)]) /\ slice lc i 1 = [(0x5B, 0)] /\ i < zlen lc /\ located (i + 1) (i + 1) /\
  (forall d, q <= d < i -> exists o a, slice lc d 1 = [(o, a)] /\ o <> 0x5B).
Proof.
  intros [h1 h2 h3 h4 [np hnp] (fuel & cap & hc & h)] hi h16 hb. rewrite skipn_cons in h by lia. destruct fuel as [|fuel]; [discriminate|]. cbn [convert_loop] in h. rewrite hb in h. cbn [Z.eqb Pos.eqb skipn] in h.
  set (pre := firstn (Z.to_nat q) lc) in *. cbn [b_len] in h.
  set (j := if q <? i then [(L_JUMP_TO, u16 i)] else []) in *.
  assert (e1 : (if q <? i then appendOp (mkB (rev pre) q cap) L_JUMP_TO (u16 i) else Ok (mkB (rev pre) q cap)) = Ok (mkB (j ++ rev pre) (q + zlen j) cap)).
  { unfold j. destruct (Z.ltb_spec q i); [rewrite appendOp_ok by (cbn; lia); reflexivity|]. cbn. rewrite Z.add_0_r. reflexivity. }
  rewrite e1 in h. cbn [rbind] in h. assert (hj : q + zlen j <= i) by (unfold j; destruct (Z.ltb_spec q i); cbn; lia).
  unfold padNoOpsUntil in h. cbn [b_len b_cap b_rev] in h. destruct (Z.ltb_spec i (q + zlen j)); [lia|]. destruct (Z.ltb_spec cap i); [lia|]. cbn [rbind] in h.
  set (pad := repeat (L_NOOP, 0) (Z.to_nat (i - (q + zlen j)))) in *.
  assert (hpad : zlen pad = i - (q + zlen j)) by (unfold pad; unfold zlen at 1; rewrite repeat_length; lia).
  unfold appendCode in h. rewrite appendOp_ok in h by (cbn; lia). cbn [rbind b_rev b_len b_cap] in h.
  destruct (convert_loop_ext _ _ _ _ _ h) as [t et]. cbn [b_rev] in et.
  replace ((0x5B, 0) :: pad ++ j ++ rev pre) with (((0x5B, 0) :: pad ++ j) ++ rev pre) in et, h by (cbn; rewrite <- app_assoc; reflexivity).
  destruct (lc_prefix _ q t ltac:(lia) et) as (p1 & p2 & p3). rewrite zlen_cons, zlen_app in p1, p2, p3.
  replace (q + (zlen pad + zlen j + 1)) with (i + 1) in p1, p3 by lia. replace (zlen pad + zlen j + 1) with (i - q + 1) in p2 by lia.
  cbn [rev] in p1, p2. rewrite rev_app_distr in p1, p2.
  assert (sub : forall d, q <= d <= i -> slice lc d 1 = slice ((rev j ++ rev pad) ++ [(0x5B, 0)]) (d - q) 1).
  { intros d hd. rewrite <- p2. unfold slice. rewrite skipn_firstn_comm. rewrite skipn_skipn'. rewrite firstn_firstn. f_equal; [lia|]. f_equal. lia. }
  assert (hl : zlen (rev j ++ rev pad) = i - q) by (rewrite zlen_app; unfold zlen in *; rewrite !rev_length; lia).
  assert (none : forall d, q <= d < i -> exists o a, slice lc d 1 = [(o, a)] /\ o <> 0x5B).
  { intros d hd. rewrite sub by lia. unfold slice. rewrite skipn_app. replace (Z.to_nat (d - q) - length (rev j ++ rev pad))%nat with 0%nat by (unfold zlen in hl; lia). cbn [skipn].
    assert (hne : skipn (Z.to_nat (d - q)) (rev j ++ rev pad) <> []). { intros e. assert (zlen (skipn (Z.to_nat (d - q)) (rev j ++ rev pad)) = 0) by (rewrite e; reflexivity). rewrite zlen_skipn in * by lia. lia. }
    destruct (skipn (Z.to_nat (d - q)) (rev j ++ rev pad)) as [|[o a] l] eqn:e; [contradiction|]. exists o, a. split; [reflexivity|].
    assert (hin : In (o, a) (rev j ++ rev pad)). { rewrite <- (firstn_skipn (Z.to_nat (d - q)) (rev j ++ rev pad)). apply in_or_app. right. rewrite e. left. reflexivity. }
    apply in_app_or in hin. destruct hin as [hin|hin]; apply in_rev in hin.
    - unfold j in hin. destruct (q <? i); cbn in hin; [destruct hin as [q1|[]]; injection q1 as <- <-; discriminate|contradiction].
    - unfold pad in hin. apply repeat_spec in hin. injection hin as -> ->. discriminate. }
  repeat split.
  - intros hlt. rewrite sub by lia. unfold j. destruct (Z.ltb_spec q i); [|lia]. rewrite Z.sub_diag. unfold u16. rewrite Z.mod_small by lia. reflexivity.
  - rewrite sub by lia. unfold slice. rewrite skipn_app. rewrite skipn_all2 by (unfold zlen in hl; lia). replace (Z.to_nat (i - q) - length (rev j ++ rev pad))%nat with 0%nat by (unfold zlen in hl; lia). reflexivity.
  - lia.
  - lia.
  - lia.
  - lia.
  - lia.
  - exists (S np). rewrite pos_succ. destruct (pos_at np) as [[i0 q0] o0]. injection hnp as -> ->. cbv beta iota delta [pos_next].
    destruct (Z.ltb_spec i size); [|lia]. rewrite hb. reflexivity.
  - exists fuel, cap. split; [lia|]. rewrite p1. rewrite !rev_app_distr, !rev_involutive. cbn [rev app]. cbn [app] in h. rewrite <- app_assoc in h.
    replace (q + zlen j + (i - (q + zlen j)) + 1) with (i + 1) in h by lia. rewrite <- !app_assoc. cbn [app]. rewrite <- ?app_assoc. exact h.
  - exact none.
Qed.

Lemma grouped_eq i b : 0 <= i < size -> b_len b <= i -> size <= b_cap b ->
  (if super then appendSuperInstructions b (skipn (Z.to_nat i) code) else Ok (b, 0)) =
  match grouped i with Some (e, n) => Ok (mkB (rev e ++ b_rev b) (b_len b + zlen e) (b_cap b), n) | None => Ok (b, 0) end.
Proof. intros hi hl hc. unfold grouped. destruct super; [|reflexivity]. apply super_ok. rewrite zlen_skipn by lia. lia. Qed.
Lemma grouped_group i e n : 0 <= i < size -> grouped i = Some (e, n) -> group i e n.
Proof. intros hi. unfold grouped. destruct super; [|discriminate]. apply super_group. exact hi. Qed.
Lemma code_byte i : is_byte (code_at code i).
Proof. unfold code_at. apply data_at_byte. exact Hcode. Qed.
Lemma push_len_nonneg i : 0 <= push_len (code_at code i) <= 32.
Proof. unfold push_len. destruct (Z.leb_spec 0x60 (code_at code i)), (Z.leb_spec (code_at code i) 0x7F); cbn; lia. Qed.
Lemma entries_zlen i : 1 <= zlen (entries i (code_at code i)) <= 1 + push_len (code_at code i) /\
  (1 <= push_len (code_at code i) -> zlen (entries i (code_at code i)) = push_len (code_at code i) / 2 + push_len (code_at code i) mod 2).
Proof.
  pose proof (push_len_nonneg i) as hp. unfold entries. destruct (Z.eqb_spec (code_at code i) 0x58) as [->|]; [cbn; lia|].
  unfold push_len in *. destruct ((0x60 <=? code_at code i) && (code_at code i <=? 0x7F)) eqn:e; [|cbn; lia].
  apply andb_prop in e. destruct e as [e1 e2]. apply Z.leb_le in e1, e2.
  pose proof (pairs_zlen (data_bytes code (i + 1) (code_at code i - 95))) as hz. rewrite data_bytes_zlen in hz. rewrite Z.max_r in hz by lia.
  destruct (pairs (data_bytes code (i + 1) (code_at code i - 95))) as [|a t].
  - rewrite zlen_nil in hz. pose proof (Z.div_mod (code_at code i - 95) 2 ltac:(lia)). pose proof (Z.mod_pos_bound (code_at code i - 95) 2 ltac:(lia)). lia.
  - rewrite zlen_cons in hz. rewrite zlen_cons. replace (zlen (map (pair L_DATA) t)) with (zlen t) by (unfold zlen; rewrite map_length; reflexivity). rewrite hz.
    pose proof (Z.div_mod (code_at code i - 95) 2 ltac:(lia)). pose proof (Z.mod_pos_bound (code_at code i - 95) 2 ltac:(lia)). lia.
Qed.
Lemma located_plain i q : located i q -> i < size -> i <= 65535 -> code_at code i <> 0x5B -> grouped i = None ->
  let e := entries i (code_at code i) in
  slice lc q (zlen e) = e /\ q + zlen e <= zlen lc /\ located (i + 1 + push_len (code_at code i)) (q + zlen e).
Proof.
  intros [h1 h2 h3 h4 [np hnp] (fuel & cap & hc & h)] hi h16 hb ha e. rewrite skipn_cons in h by lia. destruct fuel as [|fuel]; [discriminate|]. cbn [convert_loop] in h.
  destruct (Z.eqb_spec (code_at code i) 0x5B) as [?|_]; [contradiction|]. rewrite <- skipn_cons in h by lia.
  destruct (plain_ok (mkB (rev (firstn (Z.to_nat q) lc)) q cap) i ltac:(lia) ltac:(cbn; lia) ltac:(cbn; lia) h16) as (cap' & hc' & e1); [rewrite grouped_eq by (cbn [b_len b_cap]; lia); rewrite ha; reflexivity|]. cbv zeta in e1. fold e in e1.
  rewrite e1 in h. cbn [rbind b_rev b_len] in h. destruct (convert_loop_ext _ _ _ _ _ h) as [t et]. cbn [b_rev] in et.
  destruct (lc_prefix _ q t ltac:(lia) et) as (p1 & p2 & p3). rewrite rev_involutive in p1, p2. replace (zlen (rev e)) with (zlen e) in p1, p2, p3 by (unfold zlen; rewrite rev_length; reflexivity).
  pose proof (push_len_nonneg i) as hp. pose proof (proj1 (entries_zlen i)) as he. fold e in he.
  repeat split; try assumption; try lia.
  { exists (S np). rewrite pos_succ. destruct (pos_at np) as [[i0 q0] o0]. injection hnp as -> ->. cbv beta iota delta [pos_next].
    destruct (Z.ltb_spec i size); [|lia]. destruct (Z.eqb_spec (code_at code i) 0x5B); [contradiction|]. rewrite ha. reflexivity. }
  exists fuel, cap'. split; [lia|]. rewrite p1, rev_app_distr. rewrite skipn_skipn' in h.
  replace (Z.to_nat i + Z.to_nat (push_len (code_at code i) + 1))%nat with (Z.to_nat (i + 1 + push_len (code_at code i))) in h by lia.
  replace (i + push_len (code_at code i) + 1) with (i + 1 + push_len (code_at code i)) in h by lia. exact h.
Qed.
Lemma located_super i q e n : located i q -> i < size -> grouped i = Some (e, n) ->
  slice lc q (zlen e) = e /\ q + zlen e <= zlen lc /\ located (i + n + 1) (q + zlen e).
Proof.
  intros [h1 h2 h3 h4 [np hnp] (fuel & cap & hc & h)] hi hg. pose proof (grouped_group i e n ltac:(lia) hg) as hgr. destruct (group_walk i e n hgr) as (op & a & t0 & ee & _ & _ & hz & hn & hin & hb).
  rewrite skipn_cons in h by lia. destruct fuel as [|fuel]; [discriminate|]. cbn [convert_loop] in h. destruct (Z.eqb_spec (code_at code i) 0x5B) as [?|_]; [contradiction|]. rewrite <- skipn_cons in h by lia.
  unfold appendInstructions in h. rewrite grouped_eq in h by (cbn [b_len b_cap]; lia). rewrite hg in h. cbn [rbind b_rev b_len b_cap] in h. destruct (Z.ltb_spec 0 n); [|lia]. cbn [rbind] in h.
  destruct (convert_loop_ext _ _ _ _ _ h) as [t et]. cbn [b_rev] in et.
  destruct (lc_prefix _ q t ltac:(lia) et) as (p1 & p2 & p3). rewrite rev_involutive in p1, p2. replace (zlen (rev e)) with (zlen e) in p1, p2, p3 by (unfold zlen; rewrite rev_length; reflexivity).
  assert (he : 1 <= zlen e) by (rewrite ee, zlen_cons; pose proof (zlen_nonneg (map (pair L_DATA) t0)); lia).
  repeat split; try assumption; try lia.
  { exists (S np). rewrite pos_succ. destruct (pos_at np) as [[i0 q0] o0]. injection hnp as -> ->. cbv beta iota delta [pos_next].
    destruct (Z.ltb_spec i size); [|lia]. destruct (Z.eqb_spec (code_at code i) 0x5B); [contradiction|]. rewrite hg. reflexivity. }
  exists fuel, cap. split; [lia|]. rewrite p1, rev_app_distr. rewrite skipn_skipn' in h.
  replace (Z.to_nat i + Z.to_nat (n + 1))%nat with (Z.to_nat (i + n + 1)) in h by lia. exact h.
Qed.
Lemma group_no_dest i e n d : group i e n -> forall o a, slice e d 1 = [(o, a)] -> o <> 0x5B.
Proof.
  intros hg o a h. destruct (group_walk i e n hg) as (op & x & t & ee & _ & hop & _). assert (hin : In (o, a) e).
  { unfold slice in h. rewrite <- (firstn_skipn (Z.to_nat d) e). apply in_or_app. right. destruct (skipn (Z.to_nat d) e) as [|y l]; [discriminate|]. cbn in h. injection h as <-. left. reflexivity. }
  rewrite ee in hin. destruct hin as [q|hin]; [injection q as <- <-; lia|]. apply in_map_iff in hin. destruct hin as (y & q & _). injection q as <- <-. discriminate.
Qed.
Lemma entries_no_dest i d : code_at code i <> 0x5B -> forall o a, slice (entries i (code_at code i)) d 1 = [(o, a)] -> o <> 0x5B.
Proof.
  intros hb o a h. assert (hin : In (o, a) (entries i (code_at code i))).
  { unfold slice in h. rewrite <- (firstn_skipn (Z.to_nat d) (entries i (code_at code i))). apply in_or_app. right. destruct (skipn (Z.to_nat d) (entries i (code_at code i))) as [|y l]; [discriminate|]. cbn in h. injection h as <-. left. reflexivity. }
  unfold entries in hin. destruct (code_at code i =? 0x58); [destruct hin as [q|[]]; injection q as <- <-; discriminate|].
  destruct ((0x60 <=? code_at code i) && (code_at code i <=? 0x7F)).
  - destruct (pairs _) as [|x t]; [contradiction|]. destruct hin as [q|hin]; [injection q as <- <-; assumption|]. apply in_map_iff in hin. destruct hin as (y & q & _). injection q as <- <-. discriminate.
  - destruct hin as [q|[]]. injection q as <- <-. assumption.
Qed.

(** ** Jump destinations keep their position *)
Hypothesis Hsize : size <= 65536.
Lemma dest_only n : forall i q, (Z.to_nat (size - i) <= n)%nat -> located i q -> instr_start code i ->
  forall d a, q <= d -> slice lc d 1 = [(0x5B, a)] -> jumpdest code d.
Proof.
  induction n as [|n ih]; intros i q hn hl hs d a hd he; pose proof (lo_i _ _ hl) as hi; pose proof (lo_q _ _ hl) as hq.
  - pose proof (located_end _ _ hl ltac:(lia)) as e. exfalso. unfold slice in he. rewrite skipn_all2 in he by (unfold zlen in e; lia). discriminate.
  - destruct (Z_le_gt_dec size i) as [hge|hlt].
    { pose proof (located_end _ _ hl ltac:(lia)) as e. exfalso. unfold slice in he. rewrite skipn_all2 in he by (unfold zlen in e; lia). discriminate. }
    destruct (Z.eq_dec (code_at code i) 0x5B) as [hb|hb].
    + destruct (located_jumpdest i q hl ltac:(lia) ltac:(lia) hb) as (_ & h2 & _ & h4 & h5).
      destruct (Z_lt_ge_dec d i); [destruct (h5 d ltac:(lia)) as (o & a' & h6 & h7); rewrite h6 in he; injection he as -> ->; contradiction|].
      destruct (Z.eq_dec d i) as [->|]; [repeat split; [assumption|lia|assumption]|].
      apply (ih (i + 1) (i + 1) ltac:(lia) h4) with a; [|lia|assumption]. pose proof (start_next code i hs ltac:(lia)) as hst. rewrite hb in hst. change (push_len 0x5B) with 0 in hst. rewrite Z.add_0_r in hst. exact hst.
    + destruct (grouped i) as [[e k]|] eqn:eg.
      * destruct (located_super i q e k hl ltac:(lia) eg) as (p1 & p2 & p3). pose proof (grouped_group i e k ltac:(lia) eg) as hg. destruct (group_walk i e k hg) as (op & x & t & ee & hw & _ & _ & hk & _ & _).
        destruct (Z_lt_ge_dec d (q + zlen e)).
        -- exfalso. apply (group_no_dest i e k (d - q) hg 0x5B a); [|reflexivity]. rewrite <- he, <- p1 at 1.
           unfold slice. rewrite skipn_firstn_comm, skipn_skipn', firstn_firstn. f_equal; [lia|f_equal; lia].
        -- apply (ih (i + k + 1) (q + zlen e) ltac:(lia) p3) with a; [|lia|assumption]. exact (walk_start _ _ _ hw hs).
      * destruct (located_plain i q hl ltac:(lia) ltac:(lia) hb eg) as (p1 & p2 & p3). set (e := entries i (code_at code i)) in *.
        destruct (Z_lt_ge_dec d (q + zlen e)).
        -- exfalso. apply (entries_no_dest i (d - q) hb 0x5B a); [|reflexivity]. fold e. rewrite <- he, <- p1.
           unfold slice. rewrite skipn_firstn_comm, skipn_skipn', firstn_firstn. f_equal; [lia|f_equal; lia].
        -- pose proof (push_len_nonneg i). apply (ih (i + 1 + push_len (code_at code i)) (q + zlen e) ltac:(lia) p3) with a; [|lia|assumption]. apply start_next; [assumption|lia].
Qed.
Lemma dest_kept n : forall i q d, (Z.to_nat (size - i) <= n)%nat -> located i q -> instr_start code i -> jumpdest code d -> i <= d -> exists q, located d q.
Proof.
  induction n as [|n ih]; intros i q d hn hl hs hd hle; pose proof (lo_i _ _ hl) as hi; pose proof hd as (d1 & d2 & d3); [lia|].
  destruct (Z.eq_dec i d) as [<-|hne]; [eauto|]. pose proof (start_gap code d d1 i hs ltac:(lia)) as hgap. pose proof (push_len_nonneg i) as hp.
  destruct (Z.eq_dec (code_at code i) 0x5B) as [hb|hb].
  - destruct (located_jumpdest i q hl ltac:(lia) ltac:(lia) hb) as (_ & _ & _ & h4 & _). rewrite hb in hgap. change (push_len 0x5B) with 0 in hgap.
    apply (ih (i + 1) (i + 1) d ltac:(lia) h4); [|assumption|lia]. pose proof (start_next code i hs ltac:(lia)) as hst. rewrite hb in hst. change (push_len 0x5B) with 0 in hst. rewrite Z.add_0_r in hst. exact hst.
  - destruct (grouped i) as [[e k]|] eqn:eg.
    + destruct (located_super i q e k hl ltac:(lia) eg) as (p1 & p2 & p3). destruct (group_walk i e k (grouped_group i e k ltac:(lia) eg)) as (op & x & t & ee & hw & _ & _ & hk & _ & _).
      pose proof (walk_none _ _ _ d hw hs hd hle) as X. apply (ih (i + k + 1) (q + zlen e) d ltac:(lia) p3 (walk_start _ _ _ hw hs) hd X).
    + destruct (located_plain i q hl ltac:(lia) ltac:(lia) hb eg) as (_ & _ & p3). refine (ih _ _ d _ p3 (start_next code i hs _) hd hgap); lia.
Qed.
Lemma dest_at d : located 0 0 -> jumpdest code d -> exists q, located d q.
Proof. intros h0 hd. apply (dest_kept _ 0 0 d (Nat.le_refl _) h0 (start_zero code) hd). apply (start_nonneg code). apply hd. Qed.
Lemma dest_iff d a : located 0 0 -> 0 <= d -> (slice lc d 1 = [(0x5B, a)] -> jumpdest code d) /\ (jumpdest code d -> slice lc d 1 = [(0x5B, 0)]).
Proof.
  intros h0 hd. split.
  - intros he. apply (dest_only _ 0 0 (Nat.le_refl _) h0 (start_zero code) d a hd he).
  - intros h. destruct (dest_at d h0 h) as [q hq]. destruct h as (h1 & h2 & h3). apply (located_jumpdest d q hq h2 ltac:(lia) h3).
Qed.
End Conv.

(** ** The converter answers *)
Lemma convert_loop_total super code fuel : Forall is_byte code -> zlen code <= 65536 ->
  forall i b, 0 <= i -> zlen (b_rev b) = b_len b -> b_len b <= i -> zlen code <= b_cap b -> (Z.to_nat (zlen code - i) <= fuel)%nat ->
  exists lc, convert_loop fuel super (zlen code) (skipn (Z.to_nat i) code) i b = Ok lc.
Proof.
  intros hb hsz. induction fuel as [|fuel ih]; intros i b hi hl hle hc hf.
  - rewrite skipn_all2 by (unfold zlen in hf; lia). eexists. reflexivity.
  - destruct (Z_le_gt_dec (zlen code) i); [rewrite skipn_all2 by (unfold zlen in *; lia); eexists; reflexivity|].
    rewrite skipn_cons by lia. cbn [convert_loop]. destruct (Z.eqb_spec (code_at code i) 0x5B).
    + assert (e1 : exists b1, (if b_len b <? i then appendOp b L_JUMP_TO (u16 i) else Ok b) = Ok b1 /\ zlen (b_rev b1) = b_len b1 /\ b_len b1 <= i /\ zlen code <= b_cap b1).
      { destruct (Z.ltb_spec (b_len b) i).
        - rewrite appendOp_ok by lia. eexists. split; [reflexivity|]. cbn [b_rev b_len b_cap]. rewrite zlen_cons. lia.
        - eexists. split; [reflexivity|]. lia. }
      destruct e1 as (b1 & -> & k1 & k2 & k3). cbn [rbind]. unfold padNoOpsUntil. destruct (Z.ltb_spec i (b_len b1)); [lia|]. destruct (Z.ltb_spec (b_cap b1) i); [lia|]. cbn [rbind].
      unfold appendCode. rewrite appendOp_ok by (cbn; lia). cbn [rbind b_rev b_len b_cap skipn]. apply ih; cbn [b_rev b_len b_cap]; try lia. rewrite zlen_cons, zlen_app. unfold zlen at 1. rewrite repeat_length. lia.
    + rewrite <- skipn_cons by lia. pose proof (grouped_eq super code i b ltac:(lia) ltac:(lia) ltac:(lia)) as hg. destruct (grouped super code i) as [[e k]|] eqn:eg.
      * destruct (group_walk code i e k (grouped_group super code i e k ltac:(lia) eg)) as (op & a & t & ee & _ & _ & hz & hk & hin & _).
        unfold appendInstructions. rewrite hg. cbn [rbind]. destruct (Z.ltb_spec 0 k); [|lia]. cbn [rbind]. rewrite skipn_skipn'.
        replace (Z.to_nat i + Z.to_nat (k + 1))%nat with (Z.to_nat (i + k + 1)) by lia.
        apply ih; cbn [b_rev b_len b_cap]; try lia. rewrite zlen_app. replace (zlen (rev e)) with (zlen e) by (unfold zlen; rewrite rev_length; reflexivity). lia.
      * destruct (plain_ok super code b i ltac:(lia) ltac:(lia) ltac:(lia) ltac:(lia) hg) as (cap & k1 & k2). cbv zeta in k2. rewrite k2. cbn [rbind]. rewrite skipn_skipn'.
        pose proof (push_len_nonneg code i) as hp. pose proof (proj1 (entries_zlen code i)) as he.
        replace (Z.to_nat i + Z.to_nat (push_len (code_at code i) + 1))%nat with (Z.to_nat (i + push_len (code_at code i) + 1)) by lia.
        apply ih; cbn [b_rev b_len b_cap]; try lia. rewrite zlen_app. replace (zlen (rev (entries code i (code_at code i)))) with (zlen (entries code i (code_at code i))) by (unfold zlen; rewrite rev_length; reflexivity). lia.
Qed.
Lemma convert_total super code : Forall is_byte code -> zlen code <= 65536 -> exists lc, convert super code = Ok lc /\ located super code lc 0 0.
Proof.
  intros hb hsz. destruct (convert_loop_total super code (length code) hb hsz 0 (mkB [] 0 (zlen code)) ltac:(lia) eq_refl ltac:(cbn; lia) ltac:(cbn; lia) ltac:(unfold zlen; lia)) as [lc h].
  exists lc. split; [exact h|]. pose proof (zlen_nonneg lc). split; try lia; [exists 0%nat; reflexivity|]. exists (length code), (zlen code). split; [lia|exact h].
Qed.
