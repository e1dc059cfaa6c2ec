(** What is asked of states of the conformance tests for rules to describe the EVM. *)
From Verif Require Import Base Host SpecEvm SpecVm GoAdapter GoStorage SpecLfvm Ct SpecCt CtRules.
From Coq Require Import ZArith List.
Import ListNotations.
Open Scope Z_scope.

(** what is behind the run context: costs and refunds of future calls are in a range that cannot overflow *)
Record world_ok (w : ctw) : Prop := mkWorldOk {
  wok_future : Forall (fun c => 0 <= fc_costs c < 2 ^ 63 /\ Z.abs (fc_refund c) <= 2 ^ 62 /\ Forall is_byte (fc_output c)) (w_future w);
}.
(** states that tests are generated for: the memory consists of whole words, there is no result yet *)
Record test_state (s : state) : Prop := mkTest {
  tst_ok : ct_ok s;
  tst_pc : 0 <= ct_pc s < 65536;
  tst_mem : zlen (ct_mem s) mod 32 = 0;
  tst_ret : ct_ret s = [];
  tst_world : world_ok (ct_world s);
}.

(** a position of PUSH data, before or behind the end of the code *)
Definition push_data (code : list Z) (pos : Z) : Prop := exists r, instr_start code r /\ r < zlen code /\ r < pos <= r + push_len (code_at code r).

(** States that no rule is found for.  The rules leave out some states that fail for more than one reason, or because of gas: *)
Inductive gap (s : state) : Z -> Prop :=
(* PUSH0 before Shanghai, without gas for it or with 1023 words on the stack *)
| gap_push0 : ct_revision s < 4 -> ct_gas s < 2 \/ 1023 <= zlen (ct_stack s) -> gap s 0x5F
(* jumps without enough gas, to something that is no JUMPDEST *)
| gap_jump d st : rev (ct_stack s) = d :: st -> ct_gas s < 8 -> is_dest (ct_code s) d = false -> gap s 0x56
(* conditional ones, also if the condition does not hold *)
| gap_jumpi d c st : rev (ct_stack s) = d :: c :: st -> ct_gas s < 10 -> is_dest (ct_code s) d = false \/ c = 0 -> gap s 0x57
(* logs in static frames without enough gas *)
| gap_log n : 0 <= n <= 4 -> ct_readonly s = true -> ct_gas s < 375 + 375 * n -> 2 + n <= zlen (ct_stack s) -> gap s (0xA0 + n)
(* SSTORE that adds, deletes or changes nothing: with 2300 gas, or of a slot not accessed before (from Berlin on) *)
| gap_sstore k v st : rev (ct_stack s) = k :: v :: st -> ct_readonly s = false -> 2300 <= ct_gas s ->
    ~ In (GetStorageStatus (GetOriginal (ct_world s) k) (GetCurrent (ct_world s) k) v) [S_ADDED; S_DELETED; S_MODIFIED] ->
    ct_gas s = 2300 \/ 1 <= ct_revision s /\ ~ In k (w_warm (ct_world s)) -> gap s 0x55
(* SSTORE in static frames without the gas for it in other frames *)
| gap_static k v st : rev (ct_stack s) = k :: v :: st -> ct_readonly s = true -> 2300 <= ct_gas s ->
    ct_gas s < match GetStorageStatus (GetOriginal (ct_world s) k) (GetCurrent (ct_world s) k) v with
               | S_ADDED => 20000
               | S_DELETED | S_MODIFIED => if ct_revision s =? 0 then 5000 else 2900
               | _ => 2301
               end -> gap s 0x55.
