(** C96: the enumeration of test cases (go/ct/rlz). *)
From Verif Require Import Base CtEnum SpecEnum CtEnumFacts CtEnumFacts2.
From Coq Require Import Lia ZArith List Bool.
Import ListNotations.
Open Scope Z_scope.

(** The consumer is called for all states of all combinations of test values, in order, until it aborts or an error occurs; what is
    returned is whether an error occurred. *)
Theorem C96_enumeration : forall T G O W (restrict : T -> G -> G) (generate : G -> W -> @generated O * W) consume values params new w,
  EnumerateTestCases consume restrict generate values params new w = snd (calls (one_combination restrict generate params new consume) (product values) (false, w)).
Proof. intros. apply enumerate_calls. Qed.
(** For one state: the consumer is called for all its variants, and the state is the same again afterwards, unless the consumer aborts. *)
Theorem C96_parameters : forall O W (consume : list Z * O -> W -> bool * W) params stack o w,
  exists r s w', enumerateParameters consume 0 params (stack, o) w = (r, s, w') /\ calls (fun s => consume (s, o)) (variants params stack) w = (r, w') /\ (r = true -> s = (stack, o)).
Proof. intros O W consume params stack o w. exact (parameters_calls consume o params [] stack w). Qed.
(** The combinations: all of one value of each list, each once; the variants: all stacks with, at the positions of the parameters, the
    present word or a sample. *)
Theorem C96_combinations : forall T (values : list (list T)),
  (forall c, In c (product values) <-> Forall2 (fun t l => In t l) c values) /\ (Forall (@NoDup T) values -> NoDup (product values)) /\
  forall params stack s, In s (variants params stack) <->
    length s = length stack /\ forall i v w, nth_error stack i = Some v -> nth_error s i = Some w -> w = v \/ exists samples, nth_error params i = Some samples /\ In w samples.
Proof. intros T values. split; [apply product_in|]. split; [apply product_nodup|apply variants_in]. Qed.
(** The lists of values: one for each property, in order, with values in order, and none twice; nothing is lost. *)
Theorem C96_values : forall T (property : T -> Z) compare rank sort, ordered property compare rank -> sorts property rank sort -> forall tests, let cs := cases property compare sort tests in
  (forall c, In c cs -> c <> [] /\ in_order (fun a b => rank a < rank b) c /\ forall t, In t c -> In t tests) /\
  in_order (fun c c' => forall t t', In t c -> In t' c' -> property t < property t') cs /\
  (forall c t t', In c cs -> In t c -> In t' c -> property t = property t') /\
  (forall t, In t tests -> exists c t', In c cs /\ In t' c /\ property t' = property t /\ rank t' = rank t).
Proof. intros T property compare rank sort h1 h2 tests. exact (cases_spec property compare rank sort h1 h2 tests). Qed.
(** TotalNumberOfCases: a bound on the number of calls, and their number if every combination has a state, with all the parameters, and
    the consumer does not abort. *)
Theorem C96_total : forall T G O W (restrict : T -> G -> G) (generate : G -> W -> @generated O * W) consume values params new w,
  let number := snd (snd (EnumerateTestCases (counted consume) restrict (uncounted generate) values params new (w, 0))) in
  0 <= number <= TotalNumberOfCases values params /\
  ((forall g w, exists stack o w', generate g w = (State (stack, o), w') /\ zlen params <= zlen stack) -> (forall s w, fst (consume s w) = true) -> number = TotalNumberOfCases values params).
Proof. intros T G O W restrict generate consume values params new w number. split; [apply count_bound|apply count_exact]. Qed.

(** *** Cases *)
Fixpoint en_insert (t : Z * Z) (l : list (Z * Z)) : list (Z * Z) :=
  match l with [] => [t] | u :: l' => if snd t <=? snd u then t :: l else u :: en_insert t l' end.
Definition en_sort (l : list (Z * Z)) : list (Z * Z) := fold_right en_insert [] l.
Definition en_compare (a b : Z * Z) : Z := snd a - snd b.
Lemma en_ordered : ordered fst en_compare snd.
Proof. intros a b _. unfold en_compare. lia. Qed.
Lemma en_insert_spec t l : (forall a, In a (en_insert t l) <-> a = t \/ In a l) /\ length (en_insert t l) = S (length l) /\
  (in_order (fun a b => snd a <= snd b) l -> in_order (fun a b => snd a <= snd b) (en_insert t l)).
Proof.
  induction l as [|u l (h1 & h2 & h3)]; cbn [en_insert].
  - split; [intros a; cbn; intuition|]. split; [reflexivity|]. intros _. constructor; constructor.
  - destruct (Z.leb_spec (snd t) (snd u)).
    + split; [intros a; cbn; intuition|]. split; [reflexivity|]. intros h. constructor; [|exact h]. inversion h as [|? ? h4 _]; subst. constructor; [lia|]. revert h4. apply Forall_impl. intros a. lia.
    + split; [intros a; cbn; rewrite h1; intuition|]. split; [cbn; rewrite h2; reflexivity|]. intros h. inversion h as [|? ? h4 h5]; subst. constructor; [|apply h3, h5].
      apply Forall_forall. intros a ha. apply h1 in ha. destruct ha as [->|ha]; [lia|]. rewrite Forall_forall in h4. apply h4, ha.
Qed.
Lemma en_sorts : sorts fst snd en_sort.
Proof.
  intros l _. induction l as [|t l (h1 & h2 & h3)]; [cbn; split; [intuition|split; [reflexivity|constructor]]|].
  destruct (en_insert_spec t (en_sort l)) as (k1 & k2 & k3). cbn [en_sort fold_right]. fold (en_sort l). split; [|split].
  - intros a. rewrite k1, h1. cbn. intuition.
  - rewrite k2, h2. reflexivity.
  - apply k3, h3.
Qed.
(** Values of two properties, in disorder and repeated *)
Example C96_values_case : ordered fst en_compare snd /\ sorts fst snd en_sort /\
  cases fst en_compare en_sort [(5, 9); (2, 7); (5, 3); (5, 9); (2, 8); (5, 3)] = [[(2, 7); (2, 8)]; [(5, 3); (5, 9)]].
Proof. split; [exact en_ordered|]. split; [exact en_sorts|]. vm_compute. reflexivity. Qed.
(** The generator has the values; there is no state for one of the combinations; the consumer writes down what it gets, and aborts if asked to. *)
Definition en_generate (error : bool) (g : list Z) (w : list (list Z * list Z)) : @generated (list Z) * list (list Z * list Z) :=
  match g with [3; 8] => (if error then OtherError else Unsatisfiable, w) | _ => (State ([40; 41], g), w) end.
Definition en_consume (last : nat) (s : list Z * list Z) (w : list (list Z * list Z)) : bool * list (list Z * list Z) := (negb (length w =? last)%nat, w ++ [s]).
Definition en_run (error : bool) (last : nat) := EnumerateTestCases (en_consume last) (fun t g => snd t :: g) (en_generate error) [[(2, 7); (2, 8)]; [(5, 3); (5, 9)]] [[1]] [] [].
Example C96_case : en_run false 100 = (false, [([40; 41], [3; 7]); ([1; 41], [3; 7]); ([40; 41], [9; 7]); ([1; 41], [9; 7]); ([40; 41], [9; 8]); ([1; 41], [9; 8])]) /\
  en_run true 100 = (true, [([40; 41], [3; 7]); ([1; 41], [3; 7]); ([40; 41], [9; 7]); ([1; 41], [9; 7])]) /\
  en_run false 2 = (false, [([40; 41], [3; 7]); ([1; 41], [3; 7]); ([40; 41], [9; 7])]) /\
  TotalNumberOfCases [[(2, 7); (2, 8)]; [(5, 3); (5, 9)]] [[1]] = 8.
Proof. repeat split; vm_compute; reflexivity. Qed.
(** All combinations have a state: as many calls as TotalNumberOfCases. *)
Example C96_total_case : let generate (g : list Z) (w : unit) := (State ([40; 41], g), w) in let consume (s : list Z * list Z) (w : unit) := (true, w) in
  (forall g w, exists stack o w', generate g w = (State (stack, o), w') /\ zlen [[1]] <= zlen stack) /\ (forall s w, fst (consume s w) = true) /\
  snd (snd (EnumerateTestCases (counted consume) (fun t g => snd t :: g) (uncounted generate) [[(2, 7); (2, 8)]; [(5, 3); (5, 9)]] [[1]] [] (tt, 0))) = 8.
Proof. cbv zeta. split; [intros g w; eexists _, _, _; split; [reflexivity|vm_compute; discriminate]|]. split; [reflexivity|]. vm_compute. reflexivity. Qed.
Print Assumptions C96_enumeration.
Print Assumptions C96_parameters.
Print Assumptions C96_combinations.
Print Assumptions C96_values.
Print Assumptions C96_total.
