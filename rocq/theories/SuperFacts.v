(** Consequences of the agreement of runs with super instructions. *)
From Verif Require Import Base Host SpecEvm SpecVm GoAdapter LfvmCode Lfvm SpecLfvm LfvmRun StepFacts.
From Coq Require Import Lia ZArith List Bool.
Import ListNotations.
Open Scope Z_scope.

Lemma super_run W (rc : run_context W) tx Call keccak p rv w : env_ok rc tx Call keccak (p_depth p) -> run_ok p -> In (p_revision p, rv) revisions ->
  returns_in_range (go_host rc tx) keccak (answers Call) w rv (p_code p) (message_of p) ->
  let e := evaluate (go_host rc tx) keccak (answers Call) w rv (p_code p) (message_of p) in
  exists w', LfvmRun rc tx Call keccak true w p = Ok (inl (expected (fst e)), w') /\ (unfailed (fst e) -> w' = snd e).
Proof. intros h1 h2 h3 h4. exact (lfvm_super rc tx Call keccak true p rv w h1 h2 h3 (fun _ => h4)). Qed.
Lemma slice_split {A} (l : list A) i n : l = firstn (Z.to_nat i) l ++ slice l i n ++ skipn (Z.to_nat n) (skipn (Z.to_nat i) l).
Proof. unfold slice. rewrite firstn_skipn. symmetry. apply firstn_skipn. Qed.
Lemma super_without W (rc : run_context W) tx Call keccak p rv w : env_ok rc tx Call keccak (p_depth p) -> run_ok p -> In (p_revision p, rv) revisions ->
  (forall before after, p_code p <> before ++ [0x91; 0x90; 0x50; 0x56] ++ after) ->
  let e := evaluate (go_host rc tx) keccak (answers Call) w rv (p_code p) (message_of p) in
  exists w', LfvmRun rc tx Call keccak true w p = Ok (inl (expected (fst e)), w') /\ (unfailed (fst e) -> w' = snd e).
Proof.
  intros h1 h2 h3 h4. apply super_run; try assumption. intros n f _ hs. exfalso.
  apply (h4 (firstn (Z.to_nat (f_pc f)) (p_code p)) (skipn (Z.to_nat 4) (skipn (Z.to_nat (f_pc f)) (p_code p)))). rewrite <- hs. apply slice_split.
Qed.
Lemma super_option W (rc : run_context W) tx Call keccak p rv w : env_ok rc tx Call keccak (p_depth p) -> run_ok p -> In (p_revision p, rv) revisions ->
  returns_in_range (go_host rc tx) keccak (answers Call) w rv (p_code p) (message_of p) ->
  exists r w1 w2, LfvmRun rc tx Call keccak true w p = Ok (inl r, w1) /\ LfvmRun rc tx Call keccak false w p = Ok (inl r, w2) /\ (go_success r = true -> w1 = w2).
Proof.
  intros h1 h2 h3 h4. destruct (super_run W rc tx Call keccak p rv w h1 h2 h3 h4) as (w1 & e1 & k1). destruct (lfvm_run rc tx Call keccak p rv w h1 h2 h3) as (w2 & e2 & k2).
  eexists _, w1, w2. split; [exact e1|]. split; [exact e2|]. intros hs.
  assert (u : unfailed (fst (evaluate (go_host rc tx) keccak (answers Call) w rv (p_code p) (message_of p)))).
  { unfold expected in hs. left. destruct (cr_status _); try discriminate hs. reflexivity. }
  rewrite (k1 u), (k2 u). reflexivity.
Qed.

(** a check for executions that end within [N] steps *)
Definition in_range {W} (code : list Z) (f : frame W) : bool :=
  if list_eq_dec Z.eq_dec (slice code (f_pc f) 4) [0x91; 0x90; 0x50; 0x56] then match f_stack f with _ :: _ :: d :: _ => d <? 2 ^ 31 | _ => true end else true.
Lemma returns_check {W} (H : host W) keccak call w rv code m N :
  forallb (fun n => match run_for H call keccak m rv code (is_dest code) n (initial m w) with Next f => in_range code f | _ => true end) (seq 0 N) = true ->
  match run_for H call keccak m rv code (is_dest code) N (initial m w) with Next _ => False | _ => True end ->
  returns_in_range H keccak call w rv code m.
Proof.
  intros hc he n f hn hs a b d s e. destruct (le_lt_dec N n) as [h|h].
  - replace n with (N + (n - N))%nat in hn by lia. rewrite run_for_app in hn. destruct (run_for _ _ _ _ _ _ _ N _); [contradiction|discriminate|discriminate].
  - rewrite forallb_forall in hc. specialize (hc n ltac:(apply in_seq; lia)). rewrite hn in hc. unfold in_range in hc. destruct (list_eq_dec _ _ _); [|contradiction]. rewrite e in hc. apply Z.ltb_lt. exact hc.
Qed.
