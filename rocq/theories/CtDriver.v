(** The conformance test driver: go/ct/driver/run.go, and the comparisons of the components of states in go/ct/st. *)
From Verif Require Import Base Host GoAdapter Ct CtRules.
From Coq Require Import ZArith List Bool.
Import ListNotations.
Open Scope Z_scope.

(** ** Comparisons *)
(** package maps, Equal: the same keys, with the same values *)
Fixpoint entry_of {A} (m : list (Z * A)) (k : Z) : option A :=
  match m with [] => None | (k', v) :: m => if k' =? k then Some v else entry_of m k end.
Definition maps_Equal {A} (eqv : A -> A -> bool) (a b : list (Z * A)) : bool :=
  forallb (fun k => match entry_of a k, entry_of b k with Some x, Some y => eqv x y | None, None => true | _, _ => false end) (map fst a ++ map fst b).
Definition sets_Equal (a b : list Z) : bool := forallb (contains b) a && forallb (contains a) b.
(** go/ct/st/storage.go:141-156; [valueB] is zero if there is no entry *)
Definition mapEqualIgnoringZeroValues (a b : list (Z * Z)) : bool :=
  forallb (fun k => match entry_of a k with
    | None => true
    | Some va => match entry_of b k with
                 | None => word va =? 0
                 | Some vb => word va =? word vb
                 end
    end) (map fst a) &&
  forallb (fun k => match entry_of a k, entry_of b k with None, Some vb => word vb =? 0 | _, _ => true end) (map fst b).
(** package slices, Equal and EqualFunc *)
Fixpoint slices_Equal {A} (eqv : A -> A -> bool) (a b : list A) : bool :=
  match a, b with [], [] => true | x :: a, y :: b => eqv x y && slices_Equal eqv a b | _, _ => false end.
(** go/ct/st/call_journal.go:131-133, 169-171: comparisons of structures *)
Definition kind_eqb (a b : go_kind) : bool :=
  match a, b with
  | GoCall, GoCall | GoStaticCall, GoStaticCall | GoDelegateCall, GoDelegateCall | GoCallCode, GoCallCode | GoCreate, GoCreate | GoCreate2, GoCreate2 => true
  | _, _ => false
  end.
Definition past_eqb (a b : past_call) : bool :=
  kind_eqb (pc_kind a) (pc_kind b) && (pc_recipient a =? pc_recipient b) && (pc_sender a =? pc_sender b) && list_eqb (pc_input a) (pc_input b) &&
  (pc_value a =? pc_value b) && (pc_gas a =? pc_gas b) && (pc_code_address a =? pc_code_address b).
Definition future_eqb (a b : future_call) : bool :=
  eqb (fc_success a) (fc_success b) && list_eqb (fc_output a) (fc_output b) && (fc_costs a =? fc_costs b) && (fc_refund a =? fc_refund b) && (fc_created a =? fc_created b).
(** state.go:246-258: what is behind the run context. CallJournal.Equal (call_journal.go:69-82), Storage.Eq (storage.go:158-162),
    TransientStorage.Eq (transient_storage.go:46-48), Accounts.Eq (accounts.go:122-124), Logs.Eq (logs.go:48-62), the self destruct
    journal and the 256 recent block hashes *)
Definition WorldEq (a b : ctw) : bool :=
  (slices_Equal past_eqb (w_past a) (w_past b) && slices_Equal future_eqb (w_future a) (w_future b)) &&
  (mapEqualIgnoringZeroValues (w_current a) (w_current b) && maps_Equal (fun x y => word x =? word y) (w_original a) (w_original b) && sets_Equal (w_warm a) (w_warm b)) &&
  mapEqualIgnoringZeroValues (w_transient a) (w_transient b) &&
  (maps_Equal (fun x y => (word (fst x) =? word (fst y)) && list_eqb (byte_slice (snd x)) (byte_slice (snd y))) (w_accounts a) (w_accounts b) && sets_Equal (w_warm_accounts a) (w_warm_accounts b)) &&
  slices_Equal (fun x y => list_eqb (fst x) (fst y) && list_eqb (snd x) (snd y)) (w_logs a) (w_logs b) &&
  eqb (w_destructed a) (w_destructed b) &&
  slices_Equal (fun x y => (fst x =? fst y) && (snd x =? snd y)) (w_journal a) (w_journal b) &&
  forallb (fun i => hash_at a i =? hash_at b i) (upto 0 256).

(** ** Tests *)
Section Driver.
Variable tx : tx_context.
Variable keccak : list Z -> Z.
(** the filter for rules given by the user, and the order of rules *)
Variable FilterRules : list rule -> list rule.
(** ct.Evm: the tested implementation *)
Variable StepN : state -> Z -> res (state * option go_error).

Inductive verdict : Set := Passed | Unsupported | Issue.
(** run.go:169-202 runTest; expected and input are clones *)
Definition runTest (input : state) : res verdict :=
  do! rules <- GetRulesFor tx keccak input;
  match rules with
  | [] => Ok Passed
  | _ =>
    match FilterRules rules with
    | [] => Ok Passed
    | rule :: _ =>
      do! expected <- r_effect rule input;
      do! '(result, err) <- StepN input 1;
      match err with
      | Some ErrUnsupportedRevision => Ok Unsupported
      | Some _ => Ok Issue
      | None => Ok (if StateEq WorldEq result expected then Passed else Issue)
      end
    end
  end.
(** run.go:106-135 opRun, for a single state: positions of data are skipped, a panic is an issue *)
Definition opRun (input : state) : verdict :=
  if negb (IsCodeAt (ct_code input) (ct_pc input)) then Passed
  else match runTest input with Ok v => v | _ => Issue end.
End Driver.
