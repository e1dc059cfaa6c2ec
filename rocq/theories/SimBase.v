(** Simulation of the reference semantics by the model: relation between states, weakest
    preconditions, and the rules for the primitives. *)
From Verif Require Import Base Host Uint256 Memory Opcodes Interp SpecEvm ArithFacts MemFacts JumpFacts.
From Coq Require Import Lia ZArith List Bool.

(** A stack buffer with the stack [l] (top first) starting at index [top]. *)
Record rep (buf : list (option Z)) (top : Z) (l : list Z) : Prop := mkRep {
  rep_len : zlen buf = 1024;
  rep_top0 : 0 <= top;
  rep_top : top + zlen l = 1024;
  rep_at : forall i v, znth l i = Some v -> znth buf (top + i) = Some (Some v);
}.

Lemma znth_nil {A} i : znth (@nil A) i = None.
Proof. unfold znth. destruct (i <? 0); [reflexivity|]. destruct (Z.to_nat i); reflexivity. Qed.
Lemma znth_skipn {A} (l : list A) k i : 0 <= k -> 0 <= i -> znth (skipn (Z.to_nat k) l) i = znth l (k + i).
Proof.
  intros. unfold znth. destruct (Z.ltb_spec i 0), (Z.ltb_spec (k + i) 0); try lia.
  rewrite Z2Nat.inj_add by lia. generalize (Z.to_nat k) (Z.to_nat i). clear. intros k. revert l.
  induction k; intros l i; [reflexivity|]. destruct l; cbn; [destruct i; reflexivity|]. apply IHk.
Qed.
Lemma nth_error_list_upd {A} (l : list A) i j x : (i < length l)%nat ->
  nth_error (list_upd l i x) j = if Nat.eqb j i then Some x else nth_error l j.
Proof.
  revert i j; induction l; intros i j H; cbn in H; [lia|].
  destruct i, j; cbn; try reflexivity. apply IHl. lia.
Qed.
Lemma znth_list_upd {A} (l : list A) i j x : 0 <= i < zlen l ->
  znth (list_upd l (Z.to_nat i) x) j = if j =? i then Some x else znth l j.
Proof.
  intros. unfold znth. destruct (Z.ltb_spec j 0), (Z.eqb_spec j i); try lia; try reflexivity.
  - rewrite nth_error_list_upd by (unfold zlen in *; lia). subst. rewrite Nat.eqb_refl. reflexivity.
  - rewrite nth_error_list_upd by (unfold zlen in *; lia).
    destruct (Nat.eqb_spec (Z.to_nat j) (Z.to_nat i)); [lia|reflexivity].
Qed.

Lemma rep_drop buf top l k : rep buf top l -> 0 <= k <= zlen l -> rep buf (top + k) (skipn (Z.to_nat k) l).
Proof.
  intros [R1 R2 R3 R4] Hk. split; [assumption|lia|rewrite zlen_skipn; lia|].
  intros i v Hv. pose proof (znth_in _ _ _ Hv). rewrite znth_skipn in Hv by lia.
  replace (top + k + i) with (top + (k + i)) by lia. auto.
Qed.
Lemma rep_upd buf top l i v : rep buf top l -> 0 <= i < zlen l ->
  rep (list_upd buf (Z.to_nat (top + i)) (Some v)) top (list_upd l (Z.to_nat i) v).
Proof.
  intros [R1 R2 R3 R4] Hi. split; [rewrite list_upd_zlen; assumption|assumption|rewrite list_upd_zlen; assumption|].
  intros j x Hj. rewrite znth_list_upd in Hj by assumption. rewrite znth_list_upd by lia.
  destruct (Z.eqb_spec j i), (Z.eqb_spec (top + j) (top + i)); try lia; [congruence|auto].
Qed.
Lemma rep_push buf top l v : rep buf top l -> zlen l < 1024 ->
  rep (list_upd buf (Z.to_nat (top + -1)) (Some v)) (top - 1) (v :: l).
Proof.
  intros [R1 R2 R3 R4] Hl. pose proof (zlen_nonneg l).
  split; [rewrite list_upd_zlen; assumption|lia|rewrite zlen_cons; lia|].
  intros j x Hj. rewrite znth_list_upd by lia. pose proof (znth_in _ _ _ Hj).
  destruct (Z.eqb_spec (top - 1 + j) (top + -1)).
  - assert (j = 0) by lia. subst j. cbn in Hj. congruence.
  - replace (top - 1 + j) with (top + (j - 1)) by lia. apply R4.
    rewrite <- Hj. unfold znth. destruct (Z.ltb_spec (j - 1) 0), (Z.ltb_spec j 0); try lia.
    replace (Z.to_nat j) with (S (Z.to_nat (j - 1))) by lia. reflexivity.
Qed.

(** Run states that correspond to halting and failing (interpreter.h:27-43) *)
Definition halt_state (h : halt) : run_state :=
  match h with Stopped => kDone | Returned => kReturn | Reverted => kRevert end.
Definition fail_state (e : failure) : run_state :=
  match e with
  | OutOfGas => kErrorGas | StackUnderflow => kErrorStackUnderflow | StackOverflow => kErrorStackOverflow
  | BadJump => kErrorJump | InvalidInstruction => kInvalid | UndefinedInstruction => kErrorOpcode
  | StaticViolation => kErrorStaticCall | ReturnDataOutOfBounds => kErrorReturnDataCopyOutOfBounds
  | CallDepth => kErrorCall | CreateDepth => kErrorCreate | InitCodeTooLarge => kErrorInitCodeSizeExceeded
  end.

Section Wp.
Context {W SH : Type}.
Variable S : sys W SH.
Variable shok : SH -> Prop.
Variable call : W -> message -> cresult * W.
(* [may]: the calls that are going to be made; [after]: the states after such a call *)
Variable may : W -> SH -> message -> Prop.
Variable after : SH -> Prop.

Notation mst := (mst W SH).
Notation frame := (frame W).
Notation outcome := (outcome W).
Notation H := (s_host S).

Record sys_ok (depth : Z) : Prop := mkSysOk {
  sok_strict : s_strict S = false;
  sok_host : host_ok H;
  sok_calls : calls_ok call depth;
  sok_call : forall w sh m, shok sh -> may w sh m -> msg_ok m -> 0 <= msg_gas m -> msg_depth m = depth + 1 ->
    exists sh', s_call S w sh m = Ok (fst (call w m), snd (call w m), sh') /\ after sh';
  sok_hash : forall sh bs, shok sh -> Forall is_byte bs ->
    exists sh', s_hash S sh bs = Ok (s_keccak S bs, sh') /\ shok sh';
  sok_keccak : forall bs, is_word (s_keccak S bs);
}.

Definition wp {A} (m : M A) (s : mst) (Q : A -> mst -> Prop) : Prop :=
  match m s with Ok (a, s') => Q a s' | _ => False end.

Lemma wp_bind {A B} (m : M A) (k : A -> M B) s Q : wp m s (fun a s' => wp (k a) s' Q) -> wp (bind m k) s Q.
Proof. unfold wp, bind. destruct (m s) as [[a s']| |]; auto. Qed.
Lemma wp_ret {A} (a : A) s (Q : A -> mst -> Prop) : Q a s -> wp (ret a) s Q.
Proof. intros h. exact h. Qed.
Lemma wp_lift {A} (r : res A) a s (Q : A -> mst -> Prop) : r = Ok a -> Q a s -> wp (lift r) s Q.
Proof. intros ->. intros h. exact h. Qed.
Lemma wp_i64 z s (Q : Z -> mst -> Prop) : - 2 ^ 63 <= z < 2 ^ 63 -> Q z s -> wp (lift (i64 z)) s Q.
Proof. intros. eapply wp_lift; [apply i64_ok; assumption|assumption]. Qed.
Lemma wp_mono {A} (m : M A) s (Q Q' : A -> mst -> Prop) : wp m s Q -> (forall a s', Q a s' -> Q' a s') -> wp m s Q'.
Proof. unfold wp. destruct (m s) as [[a s']| |]; auto. Qed.

Lemma wp_rd top i l v s (Q : Z -> mst -> Prop) : rep (m_buf s) top l -> znth l i = Some v -> Q v s -> wp (rd top i) s Q.
Proof. intros R Hi HQ. unfold wp, rd. rewrite (rep_at _ _ _ R _ _ Hi). exact HQ. Qed.
Lemma wp_wr top i v l s (Q : unit -> mst -> Prop) : rep (m_buf s) top l -> 0 <= i < zlen l ->
  (forall buf', rep buf' top (list_upd l (Z.to_nat i) v) -> Q tt (set_buf buf' s)) -> wp (wr top i v) s Q.
Proof.
  intros R Hi HQ. unfold wp, wr. pose proof (zlen_nonneg l). pose proof (rep_len _ _ _ R). pose proof (rep_top0 _ _ _ R).
  pose proof (rep_top _ _ _ R).
  destruct (Z.leb_spec 0 (top + i)), (Z.ltb_spec (top + i) (zlen (m_buf s))); try lia. cbn [andb].
  apply HQ. apply rep_upd; assumption.
Qed.
Lemma wp_wr_push top v l s (Q : unit -> mst -> Prop) : rep (m_buf s) top l -> zlen l < 1024 ->
  (forall buf', rep buf' (top - 1) (v :: l) -> Q tt (set_buf buf' s)) -> wp (wr top (-1) v) s Q.
Proof.
  intros R Hi HQ. unfold wp, wr. pose proof (zlen_nonneg l). pose proof (rep_len _ _ _ R). pose proof (rep_top0 _ _ _ R).
  pose proof (rep_top _ _ _ R).
  destruct (Z.leb_spec 0 (top + -1)), (Z.ltb_spec (top + -1) (zlen (m_buf s))); try lia. cbn [andb].
  apply HQ. apply rep_push; assumption.
Qed.

(** The relation between a model state with stack pointer [top] and a frame. *)
Record rel (top : Z) (s : mst) (f : frame) : Prop := mkRel {
  rel_stack : rep (m_buf s) top (f_stack f);
  rel_words : Forall is_word (f_stack f);
  rel_mem : mem_rel (m_mem s) (f_mem f) (f_active f);
  rel_ret : m_ret s = f_ret f;
  rel_ret_bytes : Forall is_byte (f_ret f);
  rel_ret_len : zlen (f_ret f) < 2 ^ 63;
  rel_ref : m_ref s = f_refund f;
  rel_w : m_w s = f_world f;
  rel_sh : shok (m_sh s);
}.

(** Bounds that make all 64-bit arithmetic exact. *)
Record inv (f : frame) : Prop := mkInv {
  inv_gas : 0 <= f_gas f;
  inv_mem : f_gas f + Gmem (f_active f) < 2 ^ 54;
  inv_ref : Z.abs (f_refund f) + 199 * f_gas f < 2 ^ 62;
}.

(** What an op code's Run must establish about the reference outcome. *)
Definition op_post (len delta top : Z) (f : frame) (s : mst) (out : outcome) (r : op_result) (s' : mst) : Prop :=
  match out with
  | Next f' =>
      o_state r = kRunning /\ 0 <= o_dyn r <= f_gas f /\ f_gas f' = f_gas f - o_dyn r /\
      f_pc f' = f_pc f + len /\ rel (top - delta) s' f'
  | Halt h data f' =>
      o_state r = halt_state h /\ 0 <= o_dyn r <= f_gas f /\ f_gas f' = f_gas f - o_dyn r /\
      f_pc f' = f_pc f + len /\
      (h = Stopped -> data = [] /\ m_ret s' = f_ret f') /\ (h <> Stopped -> m_ret s' = data) /\
      rel (top - delta) (set_ret (f_ret f') s') f'
  | Fail e f' =>
      ((o_state r = kRunning /\ f_gas f < o_dyn r /\ e = OutOfGas) \/
       (o_state r = fail_state e /\ 0 <= o_dyn r <= f_gas f)) /\
      m_buf s' = m_buf s /\ m_mem s' = m_mem s /\ m_ret s' = m_ret s /\ m_ref s' = m_ref s /\
      m_w s' = f_world f' /\ f_refund f' = f_refund f /\ shok (m_sh s')
  end.

Lemma wp_mem_cost off n g mf a s (Q : Z * Z * Z -> mst -> Prop) :
  mem_rel (m_mem s) mf a -> is_word off -> is_word n -> 0 <= g -> g + Gmem a < 2 ^ 54 ->
  (forall c o k, 0 <= c <= kMaxGas -> 0 <= o < 2 ^ 64 -> 0 <= k < 2 ^ 64 ->
    (Gmem (expand a off n) - Gmem a <= g ->
       c = Gmem (expand a off n) - Gmem a /\ k = n /\ (n <> 0 -> o = off /\ 0 <= off + n < 2 ^ 37)) ->
    (g < Gmem (expand a off n) - Gmem a -> g < c) ->
    (n = 0 -> c = 0) -> Q (c, o, k) s) ->
  wp (mem_cost off n) s Q.
Proof.
  intros HR Ho Hn Hg Hm HQ. pose proof (mr_nonneg _ _ _ HR) as Ha. destruct HR as [E1 E2 E3 E4].
  destruct (memory_expansion_cost_spec a off n g E2 Ha Ho Hn Hg Hm) as (c & o & k & E & F1 & F2 & F3 & F4 & F5 & F6).
  unfold wp, mem_cost, mem_size. rewrite E1, E. cbn [rbind]. apply HQ; assumption.
Qed.

Lemma set_buf_fields b (s : mst) :
  m_buf (set_buf b s) = b /\ m_mem (set_buf b s) = m_mem s /\ m_ret (set_buf b s) = m_ret s /\
  m_ref (set_buf b s) = m_ref s /\ m_w (set_buf b s) = m_w s /\ m_sh (set_buf b s) = m_sh s.
Proof. repeat split. Qed.

End Wp.

Arguments rel {W SH}. Arguments inv {W}. Arguments op_post {W SH}. Arguments wp {W SH A}.

(** Word facts of the elements of a stack *)
Ltac inv_forall :=
  repeat match goal with
  | h : Forall is_word (_ :: _) |- _ => inversion h; clear h; subst
  end.
Ltac bool_cases :=
  repeat match goal with
  | |- context [?a <? ?b] => destruct (Z.ltb_spec a b)
  | |- context [?a <=? ?b] => destruct (Z.leb_spec a b)
  | |- context [?a =? ?b] => destruct (Z.eqb_spec a b)
  end.

Lemma rep_conv buf top l top' l' k : rep buf top l -> top' = top + k -> l' = skipn (Z.to_nat k) l ->
  0 <= k <= zlen l -> rep buf top' l'.
Proof. intros R -> -> Hk. apply rep_drop; assumption. Qed.

(** ** Tactics for the per-instruction proofs *)
Ltac zl := rewrite ?zlen_cons, ?zlen_nil in *;
  repeat match goal with |- context [zlen ?l] => lazymatch goal with h : 0 <= zlen l |- _ => fail | _ => pose proof (zlen_nonneg l) end end;
  repeat match goal with _ : context [zlen ?l] |- _ => lazymatch goal with h : 0 <= zlen l |- _ => fail | _ => pose proof (zlen_nonneg l) end end.
Ltac start :=
  intros top f s R I Hargs Hroom Hpc Hpc2;
  destruct f as [pc g stk mf act rt rf w], s as [buf m rt' rf' w' sh];
  destruct R as [Rs Rw Rm Rr Rrb Rrl Rf Rwd Rsh]; destruct I as [Ig Im Ir];
  cbn [f_pc f_gas f_stack f_mem f_active f_ret f_refund f_world m_buf m_mem m_ret m_ref m_w m_sh] in *; subst rt' rf' w'.
Ltac fld := cbn [f_pc f_gas f_stack f_mem f_active f_ret f_refund f_world m_buf m_mem m_ret m_ref m_w m_sh
  with_pc with_gas with_stack with_mem with_active with_ret add_refund with_world
  set_buf set_mem set_ret set_ref set_w set_sh next yield touch o_state o_dyn].
Ltac stk1 := match goal with _ : rep _ _ ?l |- _ => is_var l;
  let a := fresh "a" in let t := fresh "stk" in destruct l as [|a t]; [exfalso; zl; lia|] end.
Ltac stk2 := match goal with _ : rep _ _ ?l |- _ => is_var l;
  let a := fresh "a" in let b := fresh "b" in let t := fresh "stk" in
  destruct l as [|a [|b t]]; [exfalso; zl; lia|exfalso; zl; lia|] end.
Ltac stk3 := match goal with _ : rep _ _ ?l |- _ => is_var l;
  let a := fresh "a" in let b := fresh "b" in let c := fresh "c" in let t := fresh "stk" in
  destruct l as [|a [|b [|c t]]]; [exfalso; zl; lia|exfalso; zl; lia|exfalso; zl; lia|] end.
Ltac stk4 := match goal with _ : rep _ _ ?l |- _ => is_var l;
  let a := fresh "a" in let b := fresh "b" in let c := fresh "c" in let d := fresh "d" in let t := fresh "stk" in
  destruct l as [|a [|b [|c [|d t]]]]; [exfalso; zl; lia|exfalso; zl; lia|exfalso; zl; lia|exfalso; zl; lia|] end.
Ltac tonat R' :=
  change (Z.to_nat 0) with 0%nat in R'; change (Z.to_nat 1) with 1%nat in R';
  change (Z.to_nat 2) with 2%nat in R'; change (Z.to_nat 3) with 3%nat in R'; cbn [list_upd] in R'.
Ltac rdt := apply wp_bind; eapply wp_rd; [eassumption|reflexivity|].
Ltac wrt := apply wp_bind; eapply wp_wr; [eassumption|zl; lia|];
  let b' := fresh "buf" in let R' := fresh "R" in intros b' R'; tonat R'.
Ltac pusht := apply wp_bind; eapply wp_wr_push; [eassumption|zl; lia|];
  let b' := fresh "buf" in let R' := fresh "R" in intros b' R'.
Ltac words := first [assumption | apply to_word_range | apply bool_word_range | (apply addr_word; assumption) | idtac].
Ltac inv_forall' :=
  repeat match goal with
  | h : Forall is_word (?x :: ?l) |- _ =>
      let h1 := fresh "Hw" in let h2 := fresh "Hw" in
      pose proof (Forall_inv h) as h1; pose proof (Forall_inv_tail h) as h2; clear h
  end.
Ltac next_tac kk := (* establishes op_post for a Next outcome, given a stack representation *)
  unfold op_post; fld; split; [reflexivity|]; split; [lia|]; split; [lia|]; split; [lia|]; split; fld;
  [eapply rep_conv with (k := kk); [eassumption|lia|reflexivity|zl; lia]| .. ];
  try assumption; try reflexivity.
Ltac fwords := repeat first [assumption | apply Forall_cons]; words.
Ltac fail_dyn := unfold op_post; fld; split; [left; split; [reflexivity|split; [lia|reflexivity]]|];
  repeat (split; [reflexivity|]); assumption.
Ltac fail_state := unfold op_post; fld; split; [right; split; [reflexivity|lia]|];
  repeat (split; [reflexivity|]); assumption.
Ltac costt xoff xn xg := apply wp_bind; eapply wp_mem_cost with (off := xoff) (n := xn) (g := xg);
  [fld; eassumption|assumption|assumption|fld; lia|fld; lia|];
  let c := fresh "mc" in let o := fresh "mo" in let k := fresh "mk" in
  let h1 := fresh "Fc" in let h2 := fresh "Fo" in let h3 := fresh "Fk" in
  let h4 := fresh "Fyes" in let h5 := fresh "Fno" in let h6 := fresh "Fz" in
  intros c o k h1 h2 h3 h4 h5 h6; cbv beta iota.
Ltac plain_mem off n :=
  match goal with Rm : mem_rel _ _ ?act |- _ =>
    pose proof (mr_nonneg _ _ _ Rm) as Hact; pose proof (fee_nonneg act off n Hact) as Hfee;
    pose proof (Gmem_nonneg act Hact) as Hgm;
    set (fee := Gmem (expand act off n) - Gmem act) in * end.
Ltac aff g fee mc :=
  destruct (Z.ltb_spec g fee) as [Hno|Hyes];
  [ match goal with F : g < fee -> _ |- _ => specialize (F Hno) end;
    destruct (Z.ltb_spec g mc); [|lia]
  | match goal with F : fee <= g -> _ |- _ => destruct (F Hyes) as (-> & -> & Hoff) end;
    change (2 ^ 37) with 137438953472 in *; destruct (Z.ltb_spec g fee); [lia|] ].
