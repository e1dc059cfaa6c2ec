(** The creating and calling instructions of the specification, with the answer of the host put in. *)
From Verif Require Import Base Host SpecEvm.
From Coq Require Import Lia ZArith List Bool.

Section SpecCall.
Context {W : Type}.
Variable H : host W.
Variable call : W -> message -> cresult * W.
Variables (msg : message) (rev : revision).
Notation frame := (frame W).
Notation outcome := (outcome W).
Notation request := (request (W:=W)).
Notation self := (self msg).
Notation static := (static msg).

Definition create_go (two : bool) (f : frame) (value off n salt : Z) (s : list Z) : outcome :=
    if 1024 <? msg_depth msg then Fail CreateDepth f
    else
    charge (mem_fee f off n) f (fun f1 =>
    if rev_ge rev Shanghai && (49152 <? n) then Fail InitCodeTooLarge f
    else
    charge ((if rev_ge rev Shanghai then 2 * words n else 0) + (if two then 6 * words n else 0)) f1 (fun f2 =>
    let f3 := touch off n (with_ret [] f2) in
    if h_get_balance H (f_world f3) self <? value then yield (0 :: s) f3
    else
      let g := all_but_64th (f_gas f3) in
      let m := mkMsg (if two then K_CREATE2 else K_CREATE) 0 (msg_depth msg + 1) g 0 self
                     (read_bytes (f_mem f3) off n) value salt 0 None in
      let '(r, w) := call (f_world f3) m in
      let f4 := with_world w (add_refund (cr_gas_refund r)
                  (with_gas (f_gas f3 - g + cr_gas_left r) f3)) in
      match cr_status r with
      | EVMC_SUCCESS => yield (cr_create_address r :: s) f4
      | EVMC_REVERT => yield (0 :: s) (with_ret (cr_output r) f4)
      | _ => yield (0 :: s) f4
      end)).

Definition create_rq (two : bool) (f : frame) (value off n salt : Z) (s : list Z) : request :=
    if 1024 <? msg_depth msg then Now (Fail CreateDepth f)
    else
    q_charge (mem_fee f off n) f (fun f1 =>
    if rev_ge rev Shanghai && (49152 <? n) then Now (Fail InitCodeTooLarge f)
    else
    q_charge ((if rev_ge rev Shanghai then 2 * words n else 0) + (if two then 6 * words n else 0)) f1 (fun f2 =>
    let f3 := touch off n (with_ret [] f2) in
    if h_get_balance H (f_world f3) self <? value then Now (yield (0 :: s) f3)
    else
      let g := all_but_64th (f_gas f3) in
      let m := mkMsg (if two then K_CREATE2 else K_CREATE) 0 (msg_depth msg + 1) g 0 self
                     (read_bytes (f_mem f3) off n) value salt 0 None in
      Ask (f_world f3) m (fun (r : cresult) (w : W) =>
      let f4 := with_world w (add_refund (cr_gas_refund r)
                  (with_gas (f_gas f3 - g + cr_gas_left r) f3)) in
      match cr_status r with
      | EVMC_SUCCESS => yield (cr_create_address r :: s) f4
      | EVMC_REVERT => yield (0 :: s) (with_ret (cr_output r) f4)
      | _ => yield (0 :: s) f4
      end))).

Lemma q_create_eq two f : q_create H msg rev two f =
  match two, f_stack f with
  | false, v :: off :: n :: s => create_rq two f v off n 0 s
  | true, v :: off :: n :: salt :: s => create_rq two f v off n salt s
  | _, _ => Now (bad f)
  end.
Proof. unfold q_create, create_rq. destruct two, (f_stack f) as [|v [|off [|n [|salt s]]]]; reflexivity. Qed.

Lemma answer_if (b : bool) p q : answer call (if b then p else q) = if b then answer call p else answer call q.
Proof. destruct b; reflexivity. Qed.
Lemma answer_charge c f k : answer call (q_charge c f k) = charge c f (fun f => answer call (k f)).
Proof. unfold q_charge, charge. apply answer_if. Qed.
Lemma charge_ext c f (k k' : frame -> outcome) : (forall f, k f = k' f) -> charge c f k = charge c f k'.
Proof. intros h. unfold charge. rewrite h. reflexivity. Qed.

Lemma i_create_eq two f : i_create H call msg rev two f =
  match two, f_stack f with
  | false, v :: off :: n :: s => create_go two f v off n 0 s
  | true, v :: off :: n :: salt :: s => create_go two f v off n salt s
  | _, _ => bad f
  end.
Proof.
  unfold i_create, q_create, create_go. destruct two, (f_stack f) as [|v [|off [|n [|salt s]]]]; try reflexivity;
  rewrite answer_if, answer_charge; destruct (1024 <? msg_depth msg); try reflexivity; apply charge_ext; intros f1;
  rewrite answer_if; destruct (_ && _); try reflexivity; rewrite answer_charge; apply charge_ext; intros f2;
  cbv zeta; rewrite answer_if; reflexivity.
Qed.

Definition call_message (k : call_op) (addr value gas : Z) (input : list Z) : message :=
  mkMsg
    (match k with OpDelegateCall => K_DELEGATECALL | OpCallCode => K_CALLCODE | _ => K_CALL end)
    (match k with OpStaticCall => EVMC_STATIC | _ => msg_flags msg end)
    (msg_depth msg + 1) gas
    (match k with OpCall | OpStaticCall => addr | _ => self end)
    (match k with OpDelegateCall => msg_sender msg | _ => self end)
    input
    (match k with OpDelegateCall => msg_value msg | _ => value end)
    0 addr None.

Definition call_go (k : call_op) (f : frame) (greq a value ioff isz ooff osz : Z) (s : list Z) : outcome :=
    let addr := addr_of a in
    let transfers := negb (value =? 0) in
    if 1024 <? msg_depth msg then Fail CallDepth f
    else
    let act := expand (expand (f_active f) ioff isz) ooff osz in
    charge (Gmem act - Gmem (f_active f)) f (fun f1 =>
    if match k with OpCall => transfers && static | _ => false end then Fail StaticViolation f
    else
    let '(c, f2) := account_cost H rev f1 addr in
    let new_account := match k with OpCall => transfers && negb (h_account_exists H (f_world f2) addr) | _ => false end in
    charge (c + (if transfers then 9000 else 0) + (if new_account then 25000 else 0)) f2 (fun f3 =>
    let f4 := with_ret [] (with_active act f3) in
    let avail := f_gas f4 in
    let fwd := Z.min greq (all_but_64th avail) in
    let stipend := if transfers then 2300 else 0 in
    if transfers && (h_get_balance H (f_world f4) self <? value)
    then yield (0 :: s) (with_gas (avail + stipend) f4)
    else
      let m := call_message k addr value (fwd + stipend) (read_bytes (f_mem f4) ioff isz) in
      let '(r, w) := call (f_world f4) m in
      let out := cr_output r in
      let f5 := with_world w (add_refund (cr_gas_refund r) (with_gas (avail - fwd + cr_gas_left r) f4)) in
      let f6 := with_ret out (with_mem (write_bytes (f_mem f5) ooff (firstn (Z.to_nat (Z.min osz (zlen out))) out)) f5) in
      yield (bool_word (status_eqb (cr_status r) EVMC_SUCCESS) :: s) f6)).

Definition call_rq (k : call_op) (f : frame) (greq a value ioff isz ooff osz : Z) (s : list Z) : request :=
    let addr := addr_of a in
    let transfers := negb (value =? 0) in
    if 1024 <? msg_depth msg then Now (Fail CallDepth f)
    else
    let act := expand (expand (f_active f) ioff isz) ooff osz in
    q_charge (Gmem act - Gmem (f_active f)) f (fun f1 =>
    if match k with OpCall => transfers && static | _ => false end then Now (Fail StaticViolation f)
    else
    let '(c, f2) := account_cost H rev f1 addr in
    let new_account := match k with OpCall => transfers && negb (h_account_exists H (f_world f2) addr) | _ => false end in
    q_charge (c + (if transfers then 9000 else 0) + (if new_account then 25000 else 0)) f2 (fun f3 =>
    let f4 := with_ret [] (with_active act f3) in
    let avail := f_gas f4 in
    let fwd := Z.min greq (all_but_64th avail) in
    let stipend := if transfers then 2300 else 0 in
    if transfers && (h_get_balance H (f_world f4) self <? value)
    then Now (yield (0 :: s) (with_gas (avail + stipend) f4))
    else
      let m := call_message k addr value (fwd + stipend) (read_bytes (f_mem f4) ioff isz) in
      Ask (f_world f4) m (fun (r : cresult) (w : W) =>
      let out := cr_output r in
      let f5 := with_world w (add_refund (cr_gas_refund r) (with_gas (avail - fwd + cr_gas_left r) f4)) in
      let f6 := with_ret out (with_mem (write_bytes (f_mem f5) ooff (firstn (Z.to_nat (Z.min osz (zlen out))) out)) f5) in
      yield (bool_word (status_eqb (cr_status r) EVMC_SUCCESS) :: s) f6))).

Lemma q_call_eq k f : q_call H msg rev k f =
  match k, f_stack f with
  | OpCall, g :: a :: v :: io :: is :: oo :: os :: s => call_rq k f g a v io is oo os s
  | OpCallCode, g :: a :: v :: io :: is :: oo :: os :: s => call_rq k f g a v io is oo os s
  | OpDelegateCall, g :: a :: io :: is :: oo :: os :: s => call_rq k f g a 0 io is oo os s
  | OpStaticCall, g :: a :: io :: is :: oo :: os :: s => call_rq k f g a 0 io is oo os s
  | _, _ => Now (bad f)
  end.
Proof. unfold q_call, call_rq. destruct k, (f_stack f) as [|x1 [|x2 [|x3 [|x4 [|x5 [|x6 [|x7 s]]]]]]]; reflexivity. Qed.

Lemma i_call_eq k f : i_call H call msg rev k f =
  match k, f_stack f with
  | OpCall, g :: a :: v :: io :: is :: oo :: os :: s => call_go k f g a v io is oo os s
  | OpCallCode, g :: a :: v :: io :: is :: oo :: os :: s => call_go k f g a v io is oo os s
  | OpDelegateCall, g :: a :: io :: is :: oo :: os :: s => call_go k f g a 0 io is oo os s
  | OpStaticCall, g :: a :: io :: is :: oo :: os :: s => call_go k f g a 0 io is oo os s
  | _, _ => bad f
  end.
Proof.
  unfold i_call, q_call, call_go. destruct k, (f_stack f) as [|x1 [|x2 [|x3 [|x4 [|x5 [|x6 [|x7 s]]]]]]]; try reflexivity; cbv zeta;
  rewrite answer_if, answer_charge; destruct (1024 <? msg_depth msg); try reflexivity; apply charge_ext; intros f1;
  destruct (account_cost H rev f1 (addr_of x2)) as [c f2];
  rewrite ?answer_if, answer_charge;
  try (match goal with |- (if ?b then _ else _) = _ => destruct b; [reflexivity|] end);
  apply charge_ext; intros f3; rewrite answer_if; reflexivity.
Qed.

(** when the message is sent *)
Lemma create_asks (two : bool) (f : frame) (v off n salt : Z) (s : list Z) :
  f_stack f = v :: off :: n :: (if two then salt :: s else s) -> (two = false -> salt = 0) ->
  msg_depth msg <= 1024 -> mem_fee f off n <= f_gas f -> rev_ge rev Shanghai && (49152 <? n) = false ->
  let c := (if rev_ge rev Shanghai then 2 * words n else 0) + (if two then 6 * words n else 0) in
  c <= f_gas f - mem_fee f off n -> v <= h_get_balance H (f_world f) self ->
  asked (q_create H msg rev two f) = Some (f_world f,
    mkMsg (if two then K_CREATE2 else K_CREATE) 0 (msg_depth msg + 1) (all_but_64th (f_gas f - mem_fee f off n - c)) 0 self
                     (read_bytes (f_mem f) off n) v salt 0 None).
Proof.
  intros Es Hsalt Hd Hf Hi c Hc Hv.
  assert (X : forall salt' s', salt' = salt -> asked (
    if 1024 <? msg_depth msg then Now (Fail CreateDepth f)
    else
    q_charge (mem_fee f off n) f (fun f1 =>
    if rev_ge rev Shanghai && (49152 <? n) then Now (Fail InitCodeTooLarge f)
    else
    q_charge ((if rev_ge rev Shanghai then 2 * words n else 0) + (if two then 6 * words n else 0)) f1 (fun f2 =>
    let f3 := touch off n (with_ret [] f2) in
    if h_get_balance H (f_world f3) self <? v then Now (yield (0 :: s') f3)
    else
      let g := all_but_64th (f_gas f3) in
      let m := mkMsg (if two then K_CREATE2 else K_CREATE) 0 (msg_depth msg + 1) g 0 self
                     (read_bytes (f_mem f3) off n) v salt' 0 None in
      Ask (f_world f3) m (fun (r : cresult) (w : W) =>
      let f4 := with_world w (add_refund (cr_gas_refund r)
                  (with_gas (f_gas f3 - g + cr_gas_left r) f3)) in
      match cr_status r with
      | EVMC_SUCCESS => yield (cr_create_address r :: s') f4
      | EVMC_REVERT => yield (0 :: s') (with_ret (cr_output r) f4)
      | _ => yield (0 :: s') f4
      end)))) = Some (f_world f,
    mkMsg (if two then K_CREATE2 else K_CREATE) 0 (msg_depth msg + 1) (all_but_64th (f_gas f - mem_fee f off n - c)) 0 self
                     (read_bytes (f_mem f) off n) v salt 0 None)).
  { intros salt' s' ->. destruct (Z.ltb_spec 1024 (msg_depth msg)); [lia|]. unfold q_charge. destruct (Z.ltb_spec (f_gas f) (mem_fee f off n)); [lia|].
    rewrite Hi. fold c. cbn [f_gas with_gas]. destruct (Z.ltb_spec (f_gas f - mem_fee f off n) c); [lia|].
    cbn [f_world touch with_ret with_gas with_active f_gas f_mem]. destruct (Z.ltb_spec (h_get_balance H (f_world f) self) v); [lia|]. reflexivity. }
  unfold q_create. rewrite Es. destruct two; apply X; [reflexivity|]. symmetry. apply Hsalt. reflexivity.
Qed.

Lemma call_asks (k : call_op) (f : frame) (greq a v ioff isz ooff osz : Z) (s : list Z) (f2 : frame) (c : Z) :
  let hv := match k with OpCall | OpCallCode => true | _ => false end in
  f_stack f = greq :: a :: (if hv then v :: ioff :: isz :: ooff :: osz :: s else ioff :: isz :: ooff :: osz :: s) -> (hv = false -> v = 0) ->
  msg_depth msg <= 1024 ->
  let act := expand (expand (f_active f) ioff isz) ooff osz in
  let fee := Gmem act - Gmem (f_active f) in
  fee <= f_gas f ->
  (match k with OpCall => negb (v =? 0) && static | _ => false end) = false ->
  account_cost H rev (with_gas (f_gas f - fee) f) (addr_of a) = (c, f2) ->
  let transfers := negb (v =? 0) in
  let new_account := match k with OpCall => transfers && negb (h_account_exists H (f_world f2) (addr_of a)) | _ => false end in
  let cost := c + (if transfers then 9000 else 0) + (if new_account then 25000 else 0) in
  cost <= f_gas f2 ->
  transfers && (h_get_balance H (f_world f2) self <? v) = false ->
  asked (q_call H msg rev k f) = Some (f_world f2,
    call_message k (addr_of a) v (Z.min greq (all_but_64th (f_gas f2 - cost)) + (if transfers then 2300 else 0)) (read_bytes (f_mem f2) ioff isz)).
Proof.
  intros hv Es Hv0 Hd act fee Hf Hst Hac tr nc cost Hc Hb.
  unfold q_call. rewrite Es. unfold hv in *.
  assert (Hd' : 1024 <? msg_depth msg = false) by (apply Z.ltb_ge; lia).
  assert (Hf' : f_gas f <? fee = false) by (apply Z.ltb_ge; lia).
  assert (Hc' : f_gas f2 <? cost = false) by (apply Z.ltb_ge; lia).
  destruct k; cbv zeta; try (specialize (Hv0 eq_refl); subst v); rewrite Hd'; fold act; unfold q_charge; fold fee; rewrite Hf'; rewrite ?Hst; rewrite Hac; fold tr;
  match goal with |- context [f_gas f2 <? ?x] => change (f_gas f2 <? x) with (f_gas f2 <? cost) end; rewrite Hc';
  cbn [f_world with_ret with_active with_gas f_gas f_mem]; change (negb (0 =? 0)) with false in *; try (unfold tr in Hb |- *; rewrite Hb); reflexivity.
Qed.
End SpecCall.
