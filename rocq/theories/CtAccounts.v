(** The generator of accounts for the conformance tests: go/ct/gen/accounts.go,
    with the accounts of go/ct/st/accounts.go. Variables and assignments are as in CtGen.v;
    values of type U256 and addresses are integers. *)
From Verif Require Import Base CtSolve CtGen.

(** common/address.go:18-20: the last 20 bytes of a U256; addresses are the numbers below
    2^160, so that AddressToU256 (address.go:26-28) is the identity. *)
Definition NewAddress (v : Z) : Z := v mod 2 ^ 160.

(** st/accounts.go:29-32; the code is its bytes *)
Record Account := mkAccount { Balance : Z; Code : list Z }.
(** st/accounts.go:37-44: two maps *)
Record Accounts := mkAccounts { accounts : Z -> option Account; warm_accounts : Z -> bool }.
(** st/accounts.go:62-64: a missing entry is read as the zero value *)
Definition GetAccount (s : Accounts) (address : Z) : Account := match accounts s address with Some x => x | None => mkAccount 0 [] end.
(** st/accounts.go:55-60: comparison with Account{} *)
Definition IsEmpty (s : Accounts) (address : Z) : bool :=
  (Balance (GetAccount s address) =? 0) && match Code (GetAccount s address) with [] => true | _ => false end.
(** st/accounts.go:66-68, 77-79, 103-106 (of Accounts), 241-243 (Exists of the builder) *)
Definition GetBalance (s : Accounts) (address : Z) : Z := Balance (GetAccount s address).
Definition GetCode (s : Accounts) (address : Z) : list Z := Code (GetAccount s address).
Definition IsWarm (s : Accounts) (address : Z) : bool := warm_accounts s address.
Definition ExistsAccount (s : Accounts) (address : Z) : bool := match accounts s address with Some _ => true | None => false end.
(** The builder: NewAccountsBuilder (201-205), SetBalance (214-219), SetCode (221-226), SetWarm (237-243) *)
Definition NewAccountsBuilder : Accounts := mkAccounts (fun _ => None) (fun _ => false).
Definition SetBalance (address v : Z) (s : Accounts) : Accounts :=
  mkAccounts (put (accounts s) address (mkAccount v (Code (GetAccount s address)))) (warm_accounts s).
Definition SetCode (address : Z) (c : list Z) (s : Accounts) : Accounts :=
  mkAccounts (put (accounts s) address (mkAccount (Balance (GetAccount s address)) c)) (warm_accounts s).
Definition MarkWarm (address : Z) (s : Accounts) : Accounts :=
  mkAccounts (accounts s) (fun x => if x =? address then true else warm_accounts s x).

(** accounts.go:26-31. An [emptyConstraint] is the pair of a variable and a flag, with the
    same Less (348-353) and == as the [warmColdConstraint] of storage.go; both are [warmcold]. *)
Record AccountsGenerator := mkAccountsGen { ag_empty : list warmcold; ag_min : list (Z * Z); ag_max : list (Z * Z); ag_warm : list warmcold }.
(** accounts.go:33-35 *)
Definition NewAccountGenerator : AccountsGenerator := mkAccountsGen [] [] [] [].
Definition append_flag (x : Z) (b : bool) (l : list warmcold) : list warmcold :=
  if existsb (fun c => warm_eq c (mkWarm x b)) l then l else l ++ [mkWarm x b].
Definition append_bound (x v : Z) (l : list (Z * Z)) : list (Z * Z) := if has_pair l (x, v) then l else l ++ [(x, v)].
(** accounts.go:56-61, 63-68, 70-75, 77-82, 84-89, 91-96 *)
Definition BindToAddressOfEmptyAccount (x : Z) (g : AccountsGenerator) := mkAccountsGen (append_flag x true (ag_empty g)) (ag_min g) (ag_max g) (ag_warm g).
Definition BindToAddressOfNonEmptyAccount (x : Z) (g : AccountsGenerator) := mkAccountsGen (append_flag x false (ag_empty g)) (ag_min g) (ag_max g) (ag_warm g).
Definition AddBalanceLowerBound (x v : Z) (g : AccountsGenerator) := mkAccountsGen (ag_empty g) (append_bound x v (ag_min g)) (ag_max g) (ag_warm g).
Definition AddBalanceUpperBound (x v : Z) (g : AccountsGenerator) := mkAccountsGen (ag_empty g) (ag_min g) (append_bound x v (ag_max g)) (ag_warm g).
Definition AccountBindWarm (x : Z) (g : AccountsGenerator) := mkAccountsGen (ag_empty g) (ag_min g) (ag_max g) (append_flag x true (ag_warm g)).
Definition AccountBindCold (x : Z) (g : AccountsGenerator) := mkAccountsGen (ag_empty g) (ag_min g) (ag_max g) (append_flag x false (ag_warm g)).

(** The random choices of a run. A number used for one of several addresses is given by
    address, so that the order in which the Go runtime iterates over maps does not matter.
    [ch_address]: the numbers of which RandomAddress (common/address.go:30-34) takes 20
    bytes, in order; [ch_kind]: rand.Intn(3) of accounts.go:208; [ch_balance]: RandU256 in
    RandU256Between; [ch_extra_count]: Intn(5) of accounts.go:241; [ch_extra]: balance, code
    if any, and warmth of each of these entries; [ch_own]: of the executing account. *)
Record choices := mkChoices {
  ch_address : nat -> Z; ch_kind : Z -> Z; ch_balance : Z -> Z;
  ch_extra_count : Z; ch_extra : nat -> Z * option (list Z) * bool; ch_own_balance : Z; ch_own_code : list Z }.

(** common/u256.go:83-93; subtraction and addition wrap around, Mod by 0 is 0 *)
Definition RandU256Between (r lo hi : Z) : Z :=
  let rangeValue := ((hi - lo) mod 2 ^ 256 + 1) mod 2 ^ 256 in
  (lo + (if rangeValue =? 0 then 0 else r mod rangeValue)) mod 2 ^ 256.

Section Run.
Variable ch : choices.
Variable fuel : nat.

(** accounts.go:166-175 *)
Definition getUnusedAddress (g : gstate) : outcome (Z * gstate) := getUnusedKey (fun i => NewAddress (ch_address ch i)) fuel g.
(** accounts.go:177-186 *)
Definition getBoundOrBindNewAddress (v : Z) (g : gstate) : outcome (Z * gstate) :=
  match asg g v with
  | Some value => Generated (NewAddress value, g)
  | None => gen! ' (address, g1) <- getUnusedAddress g; Generated (address, mkG (drawn g1) (used g1) (put (asg g1) v address))
  end.

Definition has (l : list Z) (a : Z) : bool := existsb (Z.eqb a) l.
(** accounts.go:191-206; the sets emptyAccounts and nonEmptyAccounts are lists *)
Fixpoint empties (l : list warmcold) (E N : list Z) (g : gstate) : outcome (list Z * list Z * gstate) :=
  match l with
  | [] => Generated (E, N, g)
  | con :: l' =>
    gen! ' (address, g1) <- getBoundOrBindNewAddress (wc_key con) g;
    if wc_warm con then if has N address then ErrUnsatisfiable else empties l' (address :: E) N g1
    else if has E address then ErrUnsatisfiable else empties l' E (address :: N) g1
  end.
(** accounts.go:207-221. A set may be iterated with repetitions: an iteration has the same
    effect again. *)
Definition make_empty (s : Accounts) (address : Z) : Accounts := SetCode address [] (SetBalance address 0 s).
Definition make_nonempty (s : Accounts) (address : Z) : Accounts :=
  let k := ch_kind ch address mod 3 in
  if k =? 0 then SetBalance address 1 s
  else if k =? 1 then SetCode address [1] s
  else SetCode address [1] (SetBalance address 1 s).
(** accounts.go:224-229 *)
Fixpoint account_warms (l : list warmcold) (s : Accounts) (g : gstate) : outcome (Accounts * gstate) :=
  match l with
  | [] => Generated (s, g)
  | con :: l' =>
    gen! ' (address, g1) <- getBoundOrBindNewAddress (wc_key con) g;
    account_warms l' (if wc_warm con then MarkWarm address s else s) g1
  end.

(** accounts.go:273-280: the map lowerBounds and the list of its keys *)
Fixpoint lowers (l : list (Z * Z)) (keys : list Z) (m : Z -> option Z) (g : gstate) : outcome (list Z * (Z -> option Z) * gstate) :=
  match l with
  | [] => Generated (keys, m, g)
  | (x, v) :: l' =>
    gen! ' (address, g1) <- getBoundOrBindNewAddress x g;
    if read m address <? v then lowers l' (address :: keys) (put m address v) g1 else lowers l' keys m g1
  end.
(** accounts.go:282-289 *)
Fixpoint uppers (l : list (Z * Z)) (keys : list Z) (m : Z -> option Z) (g : gstate) : outcome (list Z * (Z -> option Z) * gstate) :=
  match l with
  | [] => Generated (keys, m, g)
  | (x, v) :: l' =>
    gen! ' (address, g1) <- getBoundOrBindNewAddress x g;
    if match m address with Some current => current >? v | None => true end
    then uppers l' (address :: keys) (put m address v) g1 else uppers l' keys m g1
  end.
(** accounts.go:290-292 *)
Definition cap (m : Z -> option Z) (address : Z) : Z -> option Z := put m address 0.
(** accounts.go:294-321 (again, a key may occur repeatedly in the list) *)
Fixpoint balances (keys : list Z) (lo hi : Z -> option Z) (s : Accounts) : outcome Accounts :=
  match keys with
  | [] => Generated s
  | address :: keys' =>
    let lower := match lo address with Some v => v | None => 0 end in
    let upper := match hi address with Some v => v | None => 2 ^ 256 - 1 end in
    if lower >? upper then ErrUnsatisfiable
    else balances keys' lo hi (SetBalance address (RandU256Between (ch_balance ch address) lower upper) s)
  end.
(** accounts.go:240-250 *)
Fixpoint account_extras (n : nat) (i : nat) (s : Accounts) (g : gstate) : outcome Accounts :=
  match n with
  | O => Generated s
  | S n' =>
    gen! ' (address, g1) <- getUnusedAddress g;
    let '(balance, code, warm) := ch_extra ch i in
    let s1 := SetBalance address balance s in
    let s2 := match code with Some c => SetCode address c s1 | None => s1 end in
    account_extras n' (S i) (if warm then MarkWarm address s2 else s2) g1
  end.

(** accounts.go:133-258: the accounts and the updated assignment *)
Definition AccountsGenerate (a : Assignment) (accountAddress : Z) (g : AccountsGenerator) : outcome (Accounts * Assignment) :=
  let es := sort warm_Less (ag_empty g) in
  if neighbours warm_conflict es then ErrUnsatisfiable
  else let wcs := sort warm_Less (ag_warm g) in
  if neighbours warm_conflict wcs then ErrUnsatisfiable
  else
    let g0 := mkG 0 (accountAddress :: map NewAddress (bound_keys a (map wc_key wcs))) a in
    gen! ' (E, N, g1) <- empties es [] [] g0;
    let s1 := fold_left make_nonempty N (fold_left make_empty E NewAccountsBuilder) in
    gen! ' (s2, g2) <- account_warms wcs s1 g1;
    gen! ' (lkeys, lo, g3) <- lowers (ag_min g) [] (fun _ => None) g2;
    gen! ' (ukeys, hi, g4) <- uppers (ag_max g) [] (fun _ => None) g3;
    gen! s3 <- balances (lkeys ++ ukeys ++ E) lo (fold_left cap E hi) s2;
    gen! s4 <- account_extras (Z.to_nat (ch_extra_count ch mod 5)) 0 s3 g4;
    let s5 := if ExistsAccount s4 accountAddress then s4 else SetBalance accountAddress (ch_own_balance ch) s4 in
    Generated (SetCode accountAddress (ch_own_code ch) s5, asg g4).
End Run.
