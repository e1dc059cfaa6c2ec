(** Why instructions of the reference fail. *)
From Verif Require Import Base Host SpecEvm SpecCall SpecVm MemFacts JumpFacts SpecFacts SpecHost FrameFacts.
From Coq Require Import Lia ZArith List Bool.
Import ListNotations.

Section Reasons.
Context {W : Type}.
Variable H : host W.
Variable call : W -> message -> cresult * W.
Variable keccak : list Z -> Z.
Variable msg : message.
Variable rv : revision.
Variable code : list Z.
Variable vd : Z -> bool.
Notation frame := (frame W).
Notation outcome := (outcome W).
Notation exec := (SpecEvm.exec H call keccak msg rv code vd).

(** [s] is the stack, top first *)
Definition why (b : Z) (s : list Z) (e : failure) : Prop :=
  match e with
  | OutOfGas => True
  | BadJump => exists d r, s = d :: r /\ vd d = false /\ (b = 0x56 \/ b = 0x57 /\ exists c r', r = c :: r' /\ c <> 0)
  | ReturnDataOutOfBounds => b = 0x3E
  | StaticViolation => b = 0xF1 /\ static msg = true /\ exists gas a v r, s = gas :: a :: v :: r /\ v <> 0
  | InitCodeTooLarge => (b = 0xF0 \/ b = 0xF5) /\ rev_ge rv Shanghai = true /\ exists v off n r, s = v :: off :: n :: r /\ 49152 < n
  | CallDepth | CreateDepth => 1024 < msg_depth msg
  | StackUnderflow | StackOverflow | InvalidInstruction | UndefinedInstruction => False
  end.
Definition reason (b : Z) (s : list Z) (o : outcome) : Prop := match o with Fail e _ => why b s e | _ => True end.

Lemma rs_charge b s f c k : (forall f', reason b s (k f')) -> reason b s (charge c f k).
Proof. intros h. unfold charge. destruct (f_gas f <? c); [exact I|apply h]. Qed.
Lemma rs_qcharge b s f c k : (forall f', reason b s (answer call (k f'))) -> reason b s (answer call (q_charge c f k)).
Proof. intros h. unfold q_charge. destruct (f_gas f <? c); [exact I|apply h]. Qed.

Ltac shorts := let Ha := fresh in intros Ha; rewrite ?zlen_cons in Ha; change (zlen (@nil Z)) with 0 in Ha; first [exfalso; lia|clear Ha].
Ltac go :=
  repeat match goal with
  | |- reason _ _ (charge _ _ _) => apply rs_charge; intros ?f
  | |- reason _ _ (answer _ (q_charge _ _ _)) => apply rs_qcharge; intros ?f
  | |- reason _ _ (yield _ _) => exact I
  | |- reason _ _ (next _) => exact I
  | |- reason _ _ (Next _) => exact I
  | |- reason _ _ (Halt _ _ _) => exact I
  | |- reason _ _ (Fail OutOfGas _) => exact I
  | |- context [account_cost ?a ?b ?c ?d] => destruct (account_cost a b c d) as [? ?]
  | |- context [slot_cost ?a ?b ?c ?d ?e] => destruct (slot_cost a b c d e) as [? ?]
  | |- reason _ _ (answer _ (Now _)) => cbn [answer]
  end.

Lemma rs_create (two : bool) (f : frame) : (if two then 4 else 3) <= zlen (f_stack f) ->
  reason (if two then 0xF5 else 0xF0) (f_stack f) (i_create H call msg rv two f).
Proof.
  intros Ha. unfold i_create, q_create.
  destruct two; destruct (f_stack f) as [|v [|off [|n [|salt s]]]] eqn:Es; try (exfalso; revert Ha; rewrite ?zlen_cons; change (zlen (@nil Z)) with 0; lia);
    (destruct (Z.ltb_spec 1024 (msg_depth msg)); [cbn; assumption|]; go;
     destruct (rev_ge rv Shanghai && (49152 <? n)) eqn:E;
       [apply andb_true_iff in E; destruct E as [E1 E2]; apply Z.ltb_lt in E2; cbn; split; [auto|]; split; [exact E1|]; do 4 eexists; split; [reflexivity|exact E2]|]; go;
     match goal with |- reason _ _ (answer _ (if ?c then _ else _)) => destruct c; [exact I|] end;
     cbn [answer]; destruct (call _ _) as [r w]; destruct (cr_status r); exact I).
Qed.
Lemma rs_call k (f : frame) : call_n k <= zlen (f_stack f) -> reason (call_b k) (f_stack f) (i_call H call msg rv k f).
Proof.
  intros Ha. unfold i_call, q_call. cbv zeta.
  destruct k; cbn [call_n call_b] in *; destruct (f_stack f) as [|x1 [|x2 [|x3 [|x4 [|x5 [|x6 [|x7 s]]]]]]] eqn:Es; try (exfalso; revert Ha; rewrite ?zlen_cons; change (zlen (@nil Z)) with 0; lia);
    (destruct (Z.ltb_spec 1024 (msg_depth msg)); [cbn; assumption|]; go);
    try (match goal with |- context [negb (x3 =? 0) && static msg] => destruct (negb (x3 =? 0) && static msg) eqn:E;
       [apply andb_true_iff in E; destruct E as [E1 E2]; apply negb_true_iff, Z.eqb_neq in E1; cbn; split; [reflexivity|]; split; [exact E2|]; do 4 eexists; split; [reflexivity|exact E1]|] end);
    go;
    match goal with |- reason _ _ (answer _ (if ?c then _ else _)) => destruct c; [exact I|] end;
    cbn [answer]; destruct (call _ _) as [r w]; exact I.
Qed.

Ltac pop1 := match goal with |- reason _ ?s _ => destruct s as [|?x ?r] eqn:?; [exfalso; cbn in *; lia|] end.
Ltac short := exfalso; repeat match goal with h : context [zlen (_ :: _)] |- _ => rewrite zlen_cons in h end; change (zlen (@nil Z)) with 0 in *; lia.
Ltac st f := let s := fresh "s" in remember (f_stack f) as s eqn:Es; clear Es.
Ltac cut4 f := destruct (f_stack f) as [|?x [|?x [|?x [|?x ?s]]]]; try short; go; try exact I.
Lemma rs_un b q (f : frame) : 1 <= zlen (f_stack f) -> reason b (f_stack f) (un q f). Proof. intros Ha. unfold un. cut4 f. Qed.
Lemma rs_bin b q (f : frame) : 2 <= zlen (f_stack f) -> reason b (f_stack f) (bin q f). Proof. intros Ha. unfold bin. cut4 f. Qed.
Lemma rs_tern b q (f : frame) : 3 <= zlen (f_stack f) -> reason b (f_stack f) (tern q f). Proof. intros Ha. unfold tern. cut4 f. Qed.
Lemma rs_push b v (f : frame) : reason b (f_stack f) (push v f). Proof. exact I. Qed.
Lemma rs_pushn b n (f : frame) : reason b (f_stack f) (i_push code n f). Proof. exact I. Qed.
Lemma rs_exp b (f : frame) : 2 <= zlen (f_stack f) -> reason b (f_stack f) (i_exp f). Proof. intros Ha. unfold i_exp. cut4 f. Qed.
Lemma rs_sha3 b (f : frame) : 2 <= zlen (f_stack f) -> reason b (f_stack f) (i_sha3 keccak f). Proof. intros Ha. unfold i_sha3. cut4 f. Qed.
Lemma rs_mload b (f : frame) : 1 <= zlen (f_stack f) -> reason b (f_stack f) (i_mload f). Proof. intros Ha. unfold i_mload. cut4 f. Qed.
Lemma rs_mstore b (f : frame) : 2 <= zlen (f_stack f) -> reason b (f_stack f) (i_mstore f). Proof. intros Ha. unfold i_mstore. cut4 f. Qed.
Lemma rs_mstore8 b (f : frame) : 2 <= zlen (f_stack f) -> reason b (f_stack f) (i_mstore8 f). Proof. intros Ha. unfold i_mstore8. cut4 f. Qed.
Lemma rs_mcopy b (f : frame) : 3 <= zlen (f_stack f) -> reason b (f_stack f) (i_mcopy f). Proof. intros Ha. unfold i_mcopy. cut4 f. Qed.
Lemma rs_copy b d (f : frame) : 3 <= zlen (f_stack f) -> reason b (f_stack f) (i_copy d f). Proof. intros Ha. unfold i_copy. cut4 f. Qed.
Lemma rs_rdc (f : frame) : 3 <= zlen (f_stack f) -> reason 0x3E (f_stack f) (i_returndatacopy f).
Proof. intros Ha. unfold i_returndatacopy. cut4 f; repeat match goal with |- reason _ _ (if ?c then _ else _) => destruct c; [try reflexivity; go|try reflexivity; go] end; exact I. Qed.
Lemma rs_account b q (f : frame) : 1 <= zlen (f_stack f) -> reason b (f_stack f) (i_account H rv q f). Proof. intros Ha. unfold i_account. cut4 f. Qed.
Lemma rs_sload b (f : frame) : 1 <= zlen (f_stack f) -> reason b (f_stack f) (i_sload H msg rv f). Proof. intros Ha. unfold i_sload. cut4 f. Qed.
Lemma rs_extcodecopy b (f : frame) : 4 <= zlen (f_stack f) -> reason b (f_stack f) (i_extcodecopy H rv f).
Proof. intros Ha. unfold i_extcodecopy. destruct (f_stack f) as [|?x [|?x [|?x [|?x ?s]]]]; try short; go. Qed.
Lemma rs_sstore b (f : frame) : 2 <= zlen (f_stack f) -> reason b (f_stack f) (i_sstore H msg rv f).
Proof. intros Ha. unfold i_sstore. destruct (f_stack f) as [|?x [|?x ?s]]; try short. destruct (f_gas f <=? 2300); [exact I|].
  destruct (rev_ge rv Berlin); [destruct (h_access_storage H _ _ _)|]; cbv beta iota zeta; destruct (h_set_storage H _ _ _ _); go. Qed.
Lemma rs_tstore b (f : frame) : 2 <= zlen (f_stack f) -> reason b (f_stack f) (i_tstore H msg f). Proof. intros Ha. unfold i_tstore. cut4 f. Qed.
Lemma rs_jump (f : frame) : 1 <= zlen (f_stack f) -> reason 0x56 (f_stack f) (i_jump vd f).
Proof. intros Ha. unfold i_jump. destruct (f_stack f) as [|d s]; try short. destruct (vd d) eqn:E; [exact I|]. exists d, s. auto. Qed.
Lemma rs_jumpi (f : frame) : 2 <= zlen (f_stack f) -> reason 0x57 (f_stack f) (i_jumpi vd f).
Proof.
  intros Ha. unfold i_jumpi. destruct (f_stack f) as [|d [|c s]]; try short.
  destruct (Z.eqb_spec c 0); [exact I|]. destruct (vd d) eqn:E; [exact I|]. exists d, (c :: s). split; [reflexivity|]. split; [exact E|]. right. eauto.
Qed.
Lemma rs_dup b n (f : frame) : 1 <= n <= zlen (f_stack f) -> reason b (f_stack f) (i_dup n f).
Proof.
  intros Hn. unfold i_dup. destruct (nth_error (f_stack f) (Z.to_nat (n - 1))) as [x|] eqn:E; [exact I|].
  apply nth_error_None in E. unfold zlen in *. lia.
Qed.
Lemma rs_swap b n (f : frame) : 1 <= n -> n + 1 <= zlen (f_stack f) -> reason b (f_stack f) (i_swap n f).
Proof.
  intros Hn Hz. unfold i_swap. destruct (f_stack f) as [|a s] eqn:Es; [unfold zlen in *; cbn in *; lia|].
  rewrite zlen_cons in Hz. destruct (nth_error s (Z.to_nat (n - 1))) as [x|] eqn:E; [exact I|]. apply nth_error_None in E. unfold zlen in *. lia.
Qed.
Lemma rs_log' b n a (f : frame) : a = n + 2 -> 0 <= n -> a <= zlen (f_stack f) -> reason b (f_stack f) (i_log H msg n f).
Proof. intros -> Hn Ha. unfold i_log. destruct (f_stack f) as [|?x [|?x ?s]]; try short; go. Qed.
Lemma rs_swap' b n a (f : frame) : a = n + 1 -> 1 <= n -> a <= zlen (f_stack f) -> reason b (f_stack f) (i_swap n f).
Proof. intros -> Hn. apply rs_swap. exact Hn. Qed.
Lemma rs_log b n (f : frame) : 2 <= zlen (f_stack f) -> reason b (f_stack f) (i_log H msg n f). Proof. intros Ha. unfold i_log. cut4 f. Qed.
Lemma rs_return b h (f : frame) : 2 <= zlen (f_stack f) -> reason b (f_stack f) (i_return h f). Proof. intros Ha. unfold i_return. cut4 f. Qed.
Lemma rs_selfdestruct b (f : frame) : 1 <= zlen (f_stack f) -> reason b (f_stack f) (i_selfdestruct H msg rv f).
Proof.
  intros Ha. unfold i_selfdestruct. destruct (f_stack f) as [|a s]; try short. destruct (rev_ge rv Berlin).
  - destruct (h_access_account H _ _). go. destruct (h_selfdestruct H _ _ _). exact I.
  - go. destruct (h_selfdestruct H _ _ _). exact I.
Qed.

Theorem exec_reason b i (f : frame) : is_byte b -> instruction b = Some i -> in_args i <= zlen (f_stack f) -> reason b (f_stack f) (exec b f).
Proof.
  intros Hb. revert b Hb i.
  apply (byte_cases (fun b => forall i, instruction b = Some i -> in_args i <= zlen (f_stack f) -> reason b (f_stack f) (exec b f))).
  cbn [seq map Z.of_nat Pos.of_succ_nat Pos.succ].
  repeat (apply Forall_cons; [
    let i := fresh in let E := fresh "Ei" in let Ha := fresh "Ha" in
    intros i E Ha; cbn in E; first [discriminate E | injection E as <-]; cbn [in_args in_results] in *;
    first [ exact (rs_create false _ Ha) | exact (rs_create true _ Ha)
      | exact (rs_call OpCall _ Ha) | exact (rs_call OpCallCode _ Ha) | exact (rs_call OpDelegateCall _ Ha) | exact (rs_call OpStaticCall _ Ha)
      | exact (rs_un _ _ _ Ha) | exact (rs_bin _ _ _ Ha) | exact (rs_tern _ _ _ Ha) | exact (rs_exp _ _ Ha) | exact (rs_sha3 _ _ Ha)
      | exact (rs_mload _ _ Ha) | exact (rs_mstore _ _ Ha) | exact (rs_mstore8 _ _ Ha) | exact (rs_mcopy _ _ Ha) | exact (rs_rdc _ Ha) | exact (rs_copy _ _ _ Ha)
      | exact (rs_account _ _ _ Ha) | exact (rs_sload _ _ Ha) | exact (rs_extcodecopy _ _ Ha) | exact (rs_sstore _ _ Ha) | exact (rs_tstore _ _ Ha)
      | exact (rs_jump _ Ha) | exact (rs_jumpi _ Ha) | exact (rs_return _ _ _ Ha) | exact (rs_selfdestruct _ _ Ha)
      | (refine (rs_dup _ _ _ (conj _ Ha)); vm_compute; discriminate) | (refine (rs_swap' _ _ _ _ _ _ Ha); first [reflexivity|vm_compute; discriminate])
      | (refine (rs_log' _ _ _ _ _ _ Ha); first [reflexivity|vm_compute; discriminate])
      | exact I | idtac ] | ]); [..|apply Forall_nil].
  change (reason 0x50 (f_stack f) (match f_stack f with _ :: s => yield s f | _ => bad f end)). destruct (f_stack f); [short|exact I].
Qed.
End Reasons.
