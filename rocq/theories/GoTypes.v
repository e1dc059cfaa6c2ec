(** go/tosca/types.go, revisions.go, utils.go: values, texts and numbers of the Go interface.  Texts are lists of character codes;
    the JSON string quoting of encoding/json (which adds and removes the quotes) is left out. *)
From Verif Require Import Base SpecEvm Floria.
From Coq Require Import String.
Local Open Scope list_scope.

(** a Value is an array of 32 bytes, most significant first (go/tosca/world_state.go:52) *)
Notation value := (list Z).

(** math/bits Add64, Sub64 *)
Definition add64 (x y carry : Z) : Z * Z := (u64 (x + y + carry), (x + y + carry) / 2 ^ 64).
Definition sub64 (x y borrow : Z) : Z * Z := (u64 (x - y - borrow), if x <? y + borrow then 1 else 0).
(** encoding/binary: BigEndian.PutUint64 *)
Definition put64 (n : Z) : list Z := be_bytes 8 n.
(** types.go:206-210 getInternalUint64 *)
Definition limb (v : value) (index : Z) : Z := be (slice v (24 - index * 8) 8).
(** types.go:87-101 *)
Definition Add (a b : value) : value :=
  let '(r0, carry) := add64 (limb a 0) (limb b 0) 0 in
  let '(r1, carry) := add64 (limb a 1) (limb b 1) carry in
  let '(r2, carry) := add64 (limb a 2) (limb b 2) carry in
  let '(r3, _) := add64 (limb a 3) (limb b 3) carry in
  put64 r3 ++ put64 r2 ++ put64 r1 ++ put64 r0.
(** types.go:103-117 *)
Definition Sub (a b : value) : value :=
  let '(r0, carry) := sub64 (limb a 0) (limb b 0) 0 in
  let '(r1, carry) := sub64 (limb a 1) (limb b 1) carry in
  let '(r2, carry) := sub64 (limb a 2) (limb b 2) carry in
  let '(r3, _) := sub64 (limb a 3) (limb b 3) carry in
  put64 r3 ++ put64 r2 ++ put64 r1 ++ put64 r0.
(** types.go:58-60: bytes.Compare *)
Fixpoint Cmp (a b : value) : Z :=
  match a, b with
  | [], [] => 0
  | [], _ :: _ => -1
  | _ :: _, [] => 1
  | x :: a, y :: b => if x <? y then -1 else if y <? x then 1 else Cmp a b
  end.
(** types.go:65-76; None: panic *)
Definition NewValue (args : list Z) : option value :=
  if 4 <? zlen args then None
  else Some (zeros (8 * (4 - zlen args)) ++ List.concat (map put64 args)).
(** types.go:119-122: uint256.Int's SetBytes, Mul and Bytes32 *)
Definition Scale (v : value) (s : Z) : value := be_bytes 32 ((be v * s) mod 2 ^ 256).

(** types.go:132-134: fmt's %x *)
Definition hex_digit (n : Z) : Z := if n <? 10 then 48 + n else 97 + (n - 10).
Definition to_hex (bs : list Z) : list Z := List.concat (map (fun b => [hex_digit (b / 16); hex_digit (b mod 16)]) bs).
Definition bytesToText (bs : list Z) : list Z := 48 :: 120 :: to_hex bs.
(** types.go:136-150: encoding/hex DecodeString *)
Definition hex_value (c : Z) : option Z :=
  if (48 <=? c) && (c <=? 57) then Some (c - 48)
  else if (97 <=? c) && (c <=? 102) then Some (c - 97 + 10)
  else if (65 <=? c) && (c <=? 70) then Some (c - 65 + 10)
  else None.
Fixpoint of_hex (cs : list Z) : option (list Z) :=
  match cs with
  | [] => Some []
  | [_] => None
  | a :: b :: cs =>
    match hex_value a, hex_value b, of_hex cs with
    | Some a, Some b, Some bs => Some (16 * a + b :: bs)
    | _, _, _ => None
    end
  end.
Definition textToBytes (want : Z) (text : list Z) : option (list Z) :=
  match text with
  | c0 :: c1 :: cs =>
    if (c0 =? 48) && (c1 =? 120)                (* "0x" *)
    then match of_hex cs with
         | Some bs => if zlen bs =? want then Some bs else None
         | None => None
         end
    else None
  | _ => None
  end.

(** types.go:152-180: CallKind's String and MarshalJSON; CallKind is an int (go/tosca/interpreter.go:155-162: Call = 0, DelegateCall, StaticCall, CallCode, Create, Create2) *)
Definition kind_names : list (list Z) := map ascii_bytes ["call"; "delegate_call"; "static_call"; "call_code"; "create"; "create2"]%string.
Definition kind_text (k : Z) : option (list Z) := znth kind_names k.
(** types.go:182-204: strings.ToLower (of ASCII texts) *)
Definition lower (c : Z) : Z := if (65 <=? c) && (c <=? 90) then c + 32 else c.
Fixpoint index_of (l : list (list Z)) (text : list Z) (n : Z) : option Z :=
  match l with [] => None | x :: l => if list_eq_dec Z.eq_dec x text then Some n else index_of l text (n + 1) end.
Definition kind_of_text (text : list Z) : option Z := index_of kind_names (map lower text) 0.

(** revisions.go:20-37, 47-50: fmt's %d *)
Definition revision_names : list (list Z) := map ascii_bytes ["Istanbul"; "Berlin"; "London"; "Paris"; "Shanghai"; "Cancun"]%string.
Fixpoint digits (fuel : nat) (n : Z) : list Z :=
  match fuel with
  | O => []
  | S fuel => if n <? 10 then [48 + n] else digits fuel (n / 10) ++ [48 + n mod 10]
  end.
Definition decimal (n : Z) : list Z := if n <? 0 then 45 :: digits 20 (- n) else digits 20 n.
Definition revision_text (r : Z) : list Z :=
  match znth revision_names r with Some t => t | None => ascii_bytes "Revision(" ++ decimal r ++ [41] end.
(** revisions.go:52-90.  The pattern is not anchored: the first match is used, wherever it is. *)
Definition is_digit (c : Z) : bool := (48 <=? c) && (c <=? 57).
Fixpoint take_digits (cs : list Z) : list Z * list Z :=
  match cs with
  | c :: cs' => if is_digit c then let '(ds, rest) := take_digits cs' in (c :: ds, rest) else ([], cs)
  | [] => ([], [])
  end.
Fixpoint strip (prefix cs : list Z) : option (list Z) :=
  match prefix, cs with
  | [], _ => Some cs
  | p :: prefix, c :: cs => if p =? c then strip prefix cs else None
  | _ :: _, [] => None
  end.
(** a match of Revision\(([0-9]+)\) at the start: the digits (there is only one way to match, as ) is not a digit) *)
Definition match_here (cs : list Z) : option (list Z) :=
  match strip (ascii_bytes "Revision(") cs with
  | Some cs => match take_digits cs with
               | (d :: ds, c :: _) => if c =? 41 then Some (d :: ds) else None
               | _ => None
               end
  | None => None
  end.
Fixpoint first_match (cs : list Z) : option (list Z) :=
  match match_here cs with
  | Some ds => Some ds
  | None => match cs with [] => None | _ :: cs => first_match cs end
  end.
(** strconv.Atoi of digits *)
Definition number (ds : list Z) : Z := fold_left (fun n c => 10 * n + (c - 48)) ds 0.
Definition revision_of_text (text : list Z) : option Z :=
  match index_of revision_names text 0 with
  | Some r => Some r
  | None => match first_match text with
            | Some ds => if number ds <? 2 ^ 63 then Some (number ds) else None
            | None => None
            end
  end.

(** utils.go:72-77; uint64 *)
Definition SizeInWords (size : Z) : Z := if 2 ^ 64 - 1 - 31 <? size then (2 ^ 64 - 1) / 32 + 1 else u64 (size + 31) / 32.
