(** Property C89: the generator of codes of the conformance tests. *)
From Verif Require Import Base SpecEvm SpecRules ArithFacts MemFacts CtSolve CtGen CtCodeGen SpecCode CtCodeGenFacts CtCodeGenFacts2.

(** A generated code fulfils all requests under the updated assignment; variables keep their
    values unless they are requested to name code or data. *)
Theorem C89_code_generator : forall rnd fill e a qs code b, Forall code_request_ok qs -> (forall x v, a x = Some v -> 0 <= v) ->
  CodeGenerate rnd fill e a (code_generator qs) = Generated (code, b) ->
  zlen code <= 24576 /\ Forall is_byte code /\ Forall (code_fulfils b code) qs /\
  forall x v, a x = Some v -> b x = Some v \/ In (CodeVar x) qs \/ In (DataVar x) qs.
Proof. exact (@code_generate_sound). Qed.
Print Assumptions C89_code_generator.

(** Generation ends, with a code or with ErrUnsatisfiable, and does not panic. *)
Theorem C89_code_generator_ends : forall rnd fill e a qs, Forall position_ok qs -> zlen qs < 2 ^ 49 -> (forall x v, a x = Some v -> 0 <= v) -> 0 <= e < 2 ^ 31 ->
  match CodeGenerate rnd fill e a (code_generator qs) with
  | Generated _ | ErrUnsatisfiable => True
  | ErrUnboundVariable | Panics | Running => False
  end.
Proof. exact (@code_generate_fine). Qed.
Print Assumptions C89_code_generator_ends.

(** Requests for operations at different known positions: every code that fulfils them can
    be generated, ... *)
Theorem C89_code_generator_complete : forall a qs ps code, positions a qs ps -> NoDup ps -> Forall (code_fulfils a code) qs ->
  zlen code <= 24576 -> zlen qs < 2 ^ 49 -> Forall is_byte code ->
  exists fill e, 0 <= e < 2 ^ 31 /\ forall rnd, CodeGenerate rnd fill e a (code_generator qs) = Generated (code, a).
Proof. exact (@code_generate_complete). Qed.
Print Assumptions C89_code_generator_complete.

(** ... and if there is one, a code is found whenever the random size reaches behind the
    requested positions. *)
Theorem C89_code_generator_satisfiable : forall a qs ps code, positions a qs ps -> NoDup ps -> Forall (code_fulfils a code) qs -> zlen code <= 24576 -> zlen qs < 2 ^ 49 ->
  forall rnd fill e, 0 <= e < 2 ^ 31 -> (forall p, In p ps -> p < e) -> exists code', CodeGenerate rnd fill e a (code_generator qs) = Generated (code', a).
Proof. exact (@code_generate_satisfiable). Qed.
Print Assumptions C89_code_generator_satisfiable.

Definition C89_requests : list code_request := [OpAt 0 0x61; OpVar 1 0x5B; OpVar 2 0x63; CodeVar 1; CodeVar 3; DataVar 4; OpVar 5 0x01].
Definition C89_bound : Assignment := fun x => if x =? 5 then Some 3 else None.
Example C89_example : Forall code_request_ok C89_requests /\ Forall position_ok C89_requests /\
  match CodeGenerate (fun n => Z.of_nat n * 7) (fun i => i + 0x60) 4 C89_bound (code_generator C89_requests) with
  | Generated (code, b) => zlen code = 14 /\ code_at code 0 = 0x61 /\ code_at code 3 = 0x01 /\ b 5 = Some 3 /\ b 1 = Some 4 /\ code_at code 4 = 0x5B /\ b 2 = Some 7 /\ code_at code 7 = 0x63 /\ b 3 = Some 0 /\ b 4 = Some 8
  | _ => False
  end.
Proof. split; [repeat constructor; cbn; lia|]. split; [repeat constructor; cbn; lia|]. vm_compute. repeat split. Qed.
Example C89_example_known : let qs := [OpAt 0 0x61; OpVar 5 0x01] in positions C89_bound qs [0; 3] /\ NoDup [0; 3] /\ Forall (code_fulfils C89_bound [0x61; 7; 8; 0x01]) qs.
Proof.
  cbv zeta. split; [reflexivity|]. split; [repeat constructor; cbn; lia|]. repeat constructor; cbn; try reflexivity.
  exists 3. split; [reflexivity|]. split; [|reflexivity]. exact (start_next [0x61; 7; 8; 0x01] 0 (start_zero _) ltac:(reflexivity)).
Qed.

(** A variable bound to a position that is not yet an instruction loses its value. *)
Theorem C89_rebound_refuted : exists rnd fill e a code b, a 1 = Some 5 /\ CodeGenerate rnd fill e a (code_generator [CodeVar 1]) = Generated (code, b) /\ b 1 <> Some 5.
Proof.
  exists (fun _ => 2), (fun _ => 0), 9, (fun _ => Some 5).
  destruct (CodeGenerate (fun _ => 2) (fun _ => 0) 9 (fun _ => Some 5) (code_generator [CodeVar 1])) as [[code b]| | | |] eqn:e;
    [|vm_compute in e; discriminate e|vm_compute in e; discriminate e|vm_compute in e; discriminate e|vm_compute in e; discriminate e].
  exists code, b. split; [reflexivity|]. split; [reflexivity|]. vm_compute in e. injection e as <- <-. vm_compute. discriminate.
Qed.
Print Assumptions C89_rebound_refuted.

(** The same operation requested twice at the same position is never found. *)
Theorem C89_twice_refuted : Forall (code_fulfils (fun _ => None) [1]) [OpAt 0 1; OpAt 0 1] /\
  forall rnd fill e, 0 <= e < 2 ^ 31 -> CodeGenerate rnd fill e (fun _ => None) (code_generator [OpAt 0 1; OpAt 0 1]) = ErrUnsatisfiable.
Proof.
  split; [repeat constructor|]. intros rnd fill e he. unfold CodeGenerate. cbn [code_generator fold_left code_request_call SetOperation NewCodeGenerator constOps varOps varIsCode varIsData app bind_ops].
  change (min_size [(0, 1); (0, 1)] [] [] []) with 1. rewrite code_size_eq by lia. set (size := Z.min (e + 1) 24576). assert (hs : 0 < size) by lia. clearbody size.
  change (negb (zlen [] + zlen [] + zlen [] =? 0)) with false. destruct (Z.ltb_spec size 0); [lia|]. cbn [gbind].
  change (sort (fun x y : Z * Z => fst x <? fst y) [(0, 1); (0, 1)]) with [(0, 1); (0, 1)]. cbn [last fst]. rewrite Z.geb_leb. destruct (Z.leb_spec size 0); [lia|].
  destruct (Z.to_nat size) as [|n] eqn:en; [lia|]. cbn [build]. rewrite !Z.geb_leb. destruct (Z.leb_spec size 0); [lia|]. change (0 <? 0) with false. change (0 =? 0) with true. cbn [is_push]. change (is_push 1) with false. cbv iota.
  change (0 + 1) with 1. change (0 <? 1) with true. cbv iota. destruct (size <=? 1); reflexivity.
Qed.
Print Assumptions C89_twice_refuted.

(** If the random size is small, requests that can be fulfilled are rejected. *)
Theorem C89_small_refuted : Forall (code_fulfils (fun _ => None) [0; 1; 1]) [OpAt 1 1; OpAt 2 1] /\
  forall rnd fill, CodeGenerate rnd fill 0 (fun _ => None) (code_generator [OpAt 1 1; OpAt 2 1]) = ErrUnsatisfiable.
Proof.
  split; [|reflexivity]. assert (h1 : instr_start [0; 1; 1] 1) by exact (start_next [0; 1; 1] 0 (start_zero _) ltac:(reflexivity)).
  assert (h2 : instr_start [0; 1; 1] 2) by exact (start_next [0; 1; 1] 1 h1 ltac:(reflexivity)). repeat constructor; cbn; assumption.
Qed.
Print Assumptions C89_small_refuted.

(** A variable operation next to a PUSH at a known position is rejected if the random size
    is small: the comment of code.go:263-266 promises that this needs two variables. *)
Theorem C89_one_variable_refuted : (exists b, Forall (code_fulfils b ([0x62; 0; 0; 0] ++ [1])) [OpAt 0 0x62; OpVar 1 1]) /\
  forall rnd fill, CodeGenerate rnd fill 0 (fun _ => None) (code_generator [OpAt 0 0x62; OpVar 1 1]) = ErrUnsatisfiable.
Proof.
  split.
  - exists (fun _ => Some 4). repeat constructor. cbn. exists 4. split; [reflexivity|]. split; [|reflexivity]. exact (start_next [0x62; 0; 0; 0; 1] 0 (start_zero _) ltac:(reflexivity)).
  - intros rnd fill. unfold CodeGenerate. change (bind_ops _ _ _ _) with (Some ([(0, 0x62)], [(1, 1)])). cbv iota beta.
    change (code_size _ _) with 2. change (2 <? 0) with false. change (negb _) with true. cbv iota. unfold solve. cbn [solveVarOps]. unfold find_position, draw_below. change (2 <=? 0) with false. cbv iota. cbn [gbind].
    set (m := rnd _ mod 2). assert (hm : m = 0 \/ m = 1) by (pose proof (Z.mod_pos_bound (rnd 0%nat) 2 ltac:(lia)) as k; subst m; cbn [new_solver v_drawn]; lia). clearbody m.
    set (good := fun p : Z => fits 2 _ p 1). assert (g0 : good 0 = false) by reflexivity. assert (g1 : good 1 = false) by reflexivity. clearbody good.
    change (Z.to_nat 2) with 2%nat. cbn [search]. destruct hm as [-> | ->]; rewrite ?g0, ?g1; cbn; rewrite ?g0, ?g1; reflexivity.
Qed.
Print Assumptions C89_one_variable_refuted.
