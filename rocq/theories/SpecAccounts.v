(** What the generator of accounts is asked for, and what fulfils it. *)
From Verif Require Import Base CtSolve CtGen SpecGen CtAccounts.
From Coq Require Import ZArith List Bool.
Import ListNotations.
Open Scope Z_scope.

Inductive account_request :=
| Empty (x : Z) | NonEmpty (x : Z)       (* the account at the address named by variable x is (not) empty *)
| AtLeast (x v : Z) | AtMost (x v : Z)   (* bounds of its balance *)
| WarmAt (x : Z) | ColdAt (x : Z).
Definition account_call (g : AccountsGenerator) (q : account_request) : AccountsGenerator :=
  match q with
  | Empty x => BindToAddressOfEmptyAccount x g | NonEmpty x => BindToAddressOfNonEmptyAccount x g
  | AtLeast x v => AddBalanceLowerBound x v g | AtMost x v => AddBalanceUpperBound x v g
  | WarmAt x => AccountBindWarm x g | ColdAt x => AccountBindCold x g
  end.
Definition accounts_generator (qs : list account_request) : AccountsGenerator := fold_left account_call qs NewAccountGenerator.
Definition account_request_ok (q : account_request) : Prop := match q with AtLeast _ v | AtMost _ v => is_word v | _ => True end.
Definition variable_of (q : account_request) : Z := match q with Empty x | NonEmpty x | AtLeast x _ | AtMost x _ | WarmAt x | ColdAt x => x end.

(** variable [x] names address [A]: the last 20 bytes of its value *)
Definition names (b : Assignment) (x A : Z) : Prop := exists v, b x = Some v /\ A = v mod 2 ^ 160.
Definition account_fulfils (b : Assignment) (s : Accounts) (q : account_request) : Prop :=
  exists A, names b (variable_of q) A /\
  match q with
  | Empty _ => GetBalance s A = 0 /\ GetCode s A = []
  | NonEmpty _ => ~ (GetBalance s A = 0 /\ GetCode s A = [])
  | AtLeast _ v => v <= GetBalance s A
  | AtMost _ v => GetBalance s A <= v
  | WarmAt _ => IsWarm s A = true
  | ColdAt _ => IsWarm s A = false
  end.
(** some accounts, and values for the variables that are not bound, fulfil the requests *)
Definition accounts_possible (a : Assignment) (qs : list account_request) : Prop :=
  exists b s, extends a b /\ Forall (account_fulfils b s) qs.

(** the random addresses are none of the bound ones *)
Definition apart (ch : choices) (a : Assignment) : Prop := forall i x A, names a x A -> ch_address ch i mod 2 ^ 160 <> A.
(** the random code has the size asked for, and the random balance 256 bits *)
Definition sized (ch : choices) : Prop := zlen (ch_own_code ch) = 42 /\ is_word (ch_own_balance ch).
(** The requests that the generator may fail to fulfil: an empty account that is the executing one; a non-empty one (other
    than the executing one) whose balance has a bound from above, but no positive one from below; cold, when warm is
    requested for another variable bound to the same address *)
Definition overlooked (a b : Assignment) (own : Z) (qs : list account_request) (q : account_request) : Prop :=
  match q with
  | Empty x => names b x own
  | NonEmpty x => ~ names b x own /\ exists A, names b x A /\ (exists y v, names b y A /\ In (AtMost y v) qs) /\
      forall y v, names b y A -> In (AtLeast y v) qs -> v = 0
  | ColdAt x => exists A y, y <> x /\ names a x A /\ names a y A /\ In (WarmAt y) qs
  | _ => False
  end.
