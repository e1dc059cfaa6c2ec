# Formal model of Tosca's evmzero (C++) in Rocq/Coq 8.16.1

Subject: `/repo/cpp` (the evmzero interpreter, its VM object, stack, memory, LRU and SHA3 caches, profiler) and the
part of `/repo/go` a user of that library sees (`go/interpreter/evmc`: the adapter that translates status codes,
`go/tosca/world_state.go`: the storage-status classification hosts use, `go/processor/floria`: the transaction processor,
`go/interpreter/lfvm`: the second interpreter with the same interface).

## Shape of the development

* **Model** – executable Gallina, one definition per C++ function, each citing file and lines. Undefined behaviour is
  an outcome (`Undef u`), never assumed away: out-of-range stack/memory/code accesses, reads of uninitialised stack
  slots, null-pc dereference, signed overflow, null/out-of-range list pointers, out-of-range profiler slots.
  Words, bytes, gas are `Z`; fixed-width wrap-around (`mod 2^64`, `mod 2^256`) is written out. Host interface and
  keccak are Section variables (so every theorem quantifies over all of them).
* **Specification** (`SpecEvm.v` and the small `Spec*.v`) – the EVM rules on mathematical objects: stack as a list,
  memory as a function with an active size, unbounded gas, byte-indexed instruction table, inductive definition of
  instruction starts. It does not import the model.
* **Proofs** – simulation of the model by the specification, invariants, refinement.
* **Props*.v** – only theorem statements closed by `exact`, non-vacuity examples, `Print Assumptions`.

Loops: the non-stepping interpreter loop runs on fuel and returns the distinct value `NoFuel` if exhausted; C03 proves
it never is. Stepping recurses on the number of steps.

## What is modelled / not modelled

| source | model | remarks |
|---|---|---|
| `cpp/vm/evmzero/interpreter.{h,cc}` | `Interp.v`, `Opcodes.v` | all opcodes, `Run`, `RunInterpreter` in both instantiations (stepping and not), `Interpret`, `InterpretNSteps`, `MemoryExpansionCost`, `DynamicGasCostMemory…`, `CheckJumpDest`, `PadCode`, the fused JUMP/JUMPDEST, observers as a parameter |
| `cpp/vm/evmzero/evmzero.cc` | `Vm.v` | `Execute`, `StepN`, `SetOption`, status translation, analysis cache, profiler access; nested calls come back into the same VM (`vm_call`) |
| `cpp/vm/evmzero/stack.{h,cc}` | `Interp.v` (buffer access), `StackPool.v` (free list, all operations), `StackConc.v` (threads and mutex) | a recycled buffer has arbitrary contents |
| `cpp/vm/evmzero/memory.{h,cc}` | `Memory.v` | growth, reads, writes, copies |
| `cpp/vm/evmzero/uint256.h` | `Uint256.v` | conversions, and the `intx` operations as integer algorithms |
| `cpp/vm/evmzero/opcodes.{h,cc,inc}` | `Opcodes.v` | byte table, static information of every opcode |
| `cpp/vm/evmzero/sha3_cache.h` | `Sha3.v` | the two caches and the length dispatch |
| `cpp/common/lru_cache.h` | `Lru.v` (pointer level: entries array, pred/succ, key map), `LruConc.v` (threads, mutex) | |
| `cpp/vm/evmzero/profiler.h`, `logger.h`, `observer.h` | `Profiler.v`, `Trace.v`, `TraceVm.v` | counts, ticks, per-depth table, log lines; the formatting of text is not modelled |
| `go/interpreter/evmc/evmc_interpreter.go` | `GoAdapter.v` | `Run`, revision and status translation, the host adapter |
| `go/tosca/world_state.go` | `GoStorage.v` | `GetStorageStatus` |
| `go/processor/floria/*.go` | `Floria.v` | `Run`, `Call`, state contract, precompiled contracts, on evmzero behind the adapter; the transaction context, the hash and address functions and geth's precompiled contracts are parameters; a snapshot is the saved state |
| `go/tosca/types.go`, `revisions.go`, `utils.go` | `GoTypes.v` | values, texts |
| `go/interpreter/lfvm/*.go` | `LfvmCode.v` (op codes, tables, converter), `Lfvm.v` (stack, memory, gas, all instructions including super instructions, the loop, `Run`) | Go panics are outcomes (`Undef`); stack and memory objects come from pools and are reset before use, modelled as fresh; uint256 as integers; the holiman/uint256 operations by their documented results; not modelled: statistics, logging |
| `go/interpreter/lfvm/keccak.{h,go}` | `Keccak.v` | the unrolled rounds line by line, absorbing, padding; 64-bit words as integers |
| `go/interpreter/lfvm/converter.go` (Converter) | `LfvmCache.v` | threads; the LRU library by its contract |
| `go/interpreter/lfvm/ct.go`, `go/interpreter/evmc/evmc_steppable_interpreter.go`, `go/ct/st/state.go` (`Eq`), `go/ct/utils/adapter.go` (`ToVmParameters`) | `Ct.v` | the targets' `StepN`, position maps, conversion of states; the caches of position maps and converted codes are left out; storage, accounts, logs etc. of a state are an abstract world behind the run context |
| `go/ct/spc/specification.go`, `specification_map.go`, `go/ct/rlz/{conditions,expressions,rules,effect}.go`, `go/ct/st/{code,stack,memory,storage,transient_storage,accounts,logs,call_journal}.go`, `go/ct/utils/adapter.go` | `CtRules.v` | all rules with conditions and effects, states and run context of the conformance tests; maps are association lists; not modelled: rule names, parameters and generators (`rlz/domain.go`, `gen/`), printing, Keccak (a parameter) |
| `go/ct/driver/run.go` (runTest, opRun), `Eq` of `go/ct/st/{storage,transient_storage,accounts,logs,call_journal}.go` | `CtDriver.v` | tests of single states, verdicts; not modelled: command line, parallel workers, enumeration of states, texts of differences; a panic of a target is an issue |
| `go/ct/gen/{range_solver,interval_solver,stack,storage,transient_storage}.go` | `CtSolve.v`, `CtGen.v` | integer types with wrap-around; random numbers are an arbitrary sequence; maps are iterated in an arbitrary order; retry loops have fuel (termination is proved); not modelled: Clone/Restore, String |
| `go/ct/gen/code.go` | `CtCodeGen.v` | random numbers are an arbitrary sequence, random bytes an arbitrary function of the position; not modelled: the field codeSize that only unit tests set, Clone/Restore, String |
| `go/ct/gen/{transaction_context,block_context}.go`, `go/ct/common/revisions.go` | `CtContext.v` | maps are lists of entries iterated in any order; not modelled: random fields nothing depends on (hashes, addresses, fees, limits), Clone/Restore, String |
| `go/ct/gen/accounts.go`, `go/ct/st/accounts.go` | `CtAccounts.v` | addresses are numbers; random choices used once per address are given by address, for any map iteration order; not modelled: Clone/Restore, String, Diff, code hash |
| `go/ct/gen/state.go`, `go/ct/gen/selfdestruct.go` | `CtState.v` | random choices by the place where they are drawn; not modelled: Clone/Restore, String, and the random fields no request concerns (memory, call journal, call and return data, recent hashes) |
| `go/ct/rlz/{conditions,expressions,domains,rules}.go` (Restrict, GenerateSatisfyingState) | `CtRestrict.v` | for the conditions of CtRules.v; not modelled: Constant, ToAddress of a word (balance of others), GetTestValues, String |
| `go/ct/rlz/{rules,test_value}.go` (EnumerateTestCases, enumerateParameters, getPropertyTestValues, removeDuplicates, TotalNumberOfCases) | `CtEnum.v` | abstract test values, generators and consumers; not modelled: GetTestValues, overflow of TotalNumberOfCases, String |
| `go/interpreter/lfvm/hash_cache.go` | `HashCache.v` | pointer level, threads; the map as an association list |

Not modelled: C++ exceptions and allocation failure, the compiler, the machine's memory model below the mutex level, the
internals of `intx`, `ethash`, `evmc`, `abseil` and of the evmc Go bindings (`third_party` is empty in this checkout; they are
modelled by their documented function: `flat_hash_map` as a finite map, keccak as an arbitrary function to 256-bit words,
`intx` operations as algorithms on integers, the bindings as a field-by-field translation), tracy zones, the text formatting of
logger and profile dump, `TimeConverter`'s floating point, `allocator.cc` (forwards to mimalloc).

Parameters of the model (all theorems quantify over them, `setting` in `Client.v`): the host and what it does when it is asked
to run a message (`g_handler`: it may run code in the same VM any number of times, in any order), keccak, the clock, the
contents of recycled stack buffers. `setting_ok` states what is assumed of them: the host returns words and byte strings in
range, gas of a nested call is not increased, the clock reads 0 <= t < 2^64-1.

Parameters of the transaction processor (`floria` in `Floria.v`, `floria_ok`, `context_ok`, `accounts_ok`, `addresses_ok`, `supply` in `SpecTx.v`):
the transaction context, of which it is assumed that what is set is read afterwards, that values have the width of their types and (for C59, C60,
C63, C66) that running code changes accounts only by SELFDESTRUCT, which takes nothing from others; the hash; the addresses of created contracts,
which are assumed (C59, C63, C66) to be none of the two special addresses and, for CREATE, not that of the creator; precompiled contracts, which
are assumed to return bytes and ask for less than 2^63 gas (`modexp` does not always, see findings). `Ledger.v` is an instance that meets all of them.

Standing hypotheses of the properties (`exec_ok`, `step_ok`, `reach`): code and input are bytes, code is shorter than 2^32,
gas of a message is below 2^54 (above, `MemoryExpansionCost` saturates and overcharges, see findings), depth is between 0 and
1024, the VM is one that was created and then used by any sequence of `Execute`, `StepN`, `SetOption` and profiler resets. For `StepN`
also: at most 1024 stack elements, pc inside the padded code, gas plus the cost of the memory passed in below 2^54.

## Trusted base

* Coq 8.16.1's kernel including `vm_compute`.
* `Print Assumptions` answers `Closed under the global context` for every theorem in `Props*.v`. (`coqchk` on the whole
  development additionally names the axioms of `Coq.ssr.ssrunder` that are part of the standard library and are loaded,
  not used, through `Setoid`.)
* The reading of the source and the C++ semantics given to each construct (comments cite file and lines).
* The specification files: `SpecEvm.v`, `SpecCall.v`, `SpecVm.v`, `SpecTrace.v`, `SpecStep.v`, `SpecOps.v`, `SpecHost.v`, `SpecFees.v`,
  `SpecCause.v`, `SpecTop.v`, `SpecCache.v`, `SpecObs.v`, `SpecTx.v`, `SpecLfvm.v`, `SpecKeccak.v`, `SpecCt.v`, `SpecRules.v`, `SpecDriver.v`, `SpecSolve.v`, `SpecGen.v`, `SpecCode.v`, `SpecWorld.v`, `SpecContext.v`, `SpecAccounts.v`, `SpecState.v`, `SpecRestrict.v`, `SpecEnum.v` and `Client.v` (the client's view: what a call of `Execute`, `StepN` is).

## Plan per property

| id | model | proof |
|---|---|---|
| C01 | `Interp.interpret` vs `SpecEvm.run` | per-instruction simulation, induction on the run |
| C02 | same; UB is an outcome | corollary of simulation: result is never `Undef` |
| C03 | fuel = gas+2 suffices | every continuing step uses at least 1 gas |
| C04 | gas of result; call-tree composition | invariant on steps + host contract |
| C05 | refund counter | invariant on steps |
| C06 | host calls | preservation of every world predicate under read-only ops; recorded traces |
| C07 | `calc_targets`, run | equivalence with inductive instruction-start predicate; invariant on pc |
| C08 | `pad_code`, PUSH, STOP | list lemmas + corollaries |
| C09 | stack buffer | simulation, arbitrary initial buffer |
| C10, C11 | `mem_expansion_cost` | arithmetic; invariant |
| C12, C13 | `Memory` | list lemmas against function-style memory |
| C14–C16 | `Uint256` ops | integer arithmetic |
| C17–C19 | opcode implementations | corollaries of per-op lemmas |
| C20–C24 | `Lru`, `Sha3`, `Vm` | refinement to recency list; invariant over histories/interleavings |
| C25, C26 | `StackPool` (histories of one thread), `StackConc` (threads, one step per access to the free list, lock and unlock as steps) | invariant preserved by every step of every thread; data-race freedom, deadlock freedom and per-thread results from the invariant |
| C27, C28 | SSTORE + storage status | case analysis; telescoping potential |
| C29–C32 | call/create ops | per-op lemmas |
| C33–C35 | tables | finite sweep lifted by `forallb_forall`, run lemmas |
| C36–C39 | `step_n` | induction on steps; C39 refuted for n>1, proved for single steps |
| C40 | observers | parametric observer, simulation |
| C41, C42, C51 | `Profiler`, `Trace`, `TraceVm` | the sequence of dispatched instructions is defined from the reference; induction over execution trees |
| C43 | `set_option` | case analysis on strings |
| C44 | opcode implementations | proved except SSTORE (refuted) |
| C45, C48, C49, C52–C54 | opcodes | per-op lemmas |
| C46, C47 | result/refund, Go adapter | refuted with witnesses, plus what does hold |
| C50 | pointer arithmetic | refuted with witness |
| C55 | conditions of all instructions | finite sweep over bytes: table of SpecFees.v = table of the code; run lemma |
| C56 | `Floria.processor_run`, `context_call` | the call as a program over executions of the VM (`SpecVm.prog`), run on any VM as on the reference |
| C57, C58 | checks and billing | case analysis, arithmetic |
| C59, C63, C66 | whole transactions | invariant of states over all call trees (`FloriaInv.steady`): total of balances; code, nonce, balance of one account |
| C60, C61, C65, C67 | `Call` | equations |
| C62 | `Call` in static mode | invariant over all call trees (`FloriaInv.still`) |
| C64 | state contract | byte-string lemmas, case analysis |
| C68, C69 | `GoTypes` (types.go, revisions.go, utils.go) | limb arithmetic with carries; induction on texts |
| C70, C71 | `LfvmCode`, `Lfvm` (lfvm, without super instructions, statistics and logging) | simulation of the reference, step by step (`LfvmStep.step_sim`), with a relation between positions of the code and of the converted code |
| C72, C73 | `LfvmCode` (converter.go, gas.go, stack_usage.go) | invariant of the conversion loop; sweep over all bytes |
| C74 | `Keccak` against `SpecKeccak` (FIPS 202 on bits) | bitwise identities for the rounds, induction on blocks, words and bytes |
| C75 | `HashCache` | invariant of list, index and values; position of a found entry in the LRU order sinks by at most one per critical section |
| C77 | `Lfvm`, `LfvmCode` (super_instructions.go, appendSuperInstructions) | every group the converter forms is a row of instructions that starts at an instruction (`LfvmConv.group_walk`); one round for a super instruction simulates the row (`LfvmSuper.group_sim`), all but the last instruction of which are plain stack instructions; then as C70 |
| C78 | `Ct` | positions of the loop of the converter (`LfvmConv.pos_at`) determine both maps (`CtMap.genPcMap_ok`); rounds of the loop are steps of the EVM or JUMP_TO (`CtFacts.rounds_ok`); induction on the number of calls with the relation `describes` |
| C79 | `Ct` | from C36's `stepn_reference` |
| C80 | `Ct` | C78 and C79; case analysis for `Eq` |
| C81 | `CtRules` | every rule by itself (`CtSound*`): if its conditions hold, its effect and `step` agree; conditions are evaluated without panics; lookup by operation |
| C82 | `CtRules` | conditions are boolean tests of a summary of the state (thresholds for gas and stack size, 13 atoms, storage status); every state behaves as one of finitely many summaries, which are enumerated by computation (`CtCover`), and the gaps found are stated in `SpecRules` |
| C83 | `CtDriver` with the targets of `Ct` and the rules of `CtRules` | C81 gives what is expected, C78/C79 what the targets do. C78 asks for contexts in which a cold slot is unchanged: one step with the context of the tests equals one step with a context in which all slots are warm, or storing never restores (`CtEnv`, `CtPick`), which one depends on C82 |
| C84 | `CtDriver` | maps and sets: equal lookups for keys in either list are equal lookups for all keys |
| C85 | `CtSolve` | invariant: the intervals are disjoint, non-empty, in order, and their union is the set of solutions |
| C86 | `CtGen` | induction over the requests: the lists of values hold what was requested; the mask holds what was written |
| C87 | `CtGen` | invariant of the assignment along the loop: bound variables stay, keys differ; the case analysis of the statuses |
| C88 | `CtGen` | for each permutation of the constraints, as C87 |
| C89 | `CtCodeGen` | invariant of the solver: what is marked is explained by an operation; marks are never changed by the solver; the code is built along its disassembly (`instr_start`) |
| C76 | `LfvmCache` | invariant: the cache contains only conversions of codes passed with that hash |
| C90 | `CtRules` (containers, `ct_rc`) | induction over histories from the end; the specification (`SpecWorld.v`) speaks of the last write of a history and of the interface only |
| C91 | `CtContext` | the loop over bound variables computes maximum and minimum; solvers by C85; permutations for iteration orders |
| C92 | `CtContext` | the constraints collected for the block number are exactly the demands of the variables (induction over each loop), then C85; invariant of the generator under requests (`lists`) |
| C93 | `CtAccounts` | invariant: variables name one address only if they are equal or both bound (fresh addresses differ from all); each loop by induction; termination by `settles` |
| C94 | `CtState` | composition of C85-C93: each generator extends the assignment, and fulfilment of a request is monotone under extension of the assignment |
| C95 | `CtRestrict` | the conditions' requests (asked) to the generator of C94; fulfilled requests imply the checks, case by case; for the rules the side conditions by computation over all 1595 |
| C96 | `CtEnum` | the nested loops are one loop over the product of the lists (induction over the lists); removeDuplicates, in place, equals a functional one (invariant on the prefix written); counting by induction over the calls |

## Findings about the code

Proved as theorems (`…_refuted`, or stated as the true behaviour in the property):

* `StepN` with more than one step that fails shows stack entries and a stack height of the batch's start with the memory, refund and
  possibly pc of the failing instruction (C39).
* SSTORE accesses and writes the slot before it checks its price; a failing SSTORE has written (C44). Hosts must undo.
* A reverted or failed execution reports its refund counter, and CALL/CREATE add a callee's refund without looking at its
  status (C46); `go/processor/floria` passes the refund on regardless of success, the geth adapter does not.
* Init code larger than 49152 bytes is reported as EVMC_FAILURE, which the Go `Run` turns into a VM error instead of a failed
  execution (C47).
* Pointers outside the allocation are formed for empty memory accesses beyond the end and for the stack pointer of a failing
  instruction (C50; never dereferenced, C02).
* The profiler and the log count a jump and the JUMPDEST it lands on as one instruction, and undefined bytes as INVALID (C41, C51).
* floria: refunds of reverted calls count, so a contract can make the refund of a transaction negative; `GasUsed` then exceeds the gas limit, and
  `refundGas` pays out `uint64` of the negative gas left, about 2^64 times the gas price (C59_negative_refund_refuted: a working attack in the model).
* floria: `GasPrice.Scale(GasLimit)` wraps modulo 2^256, so that gas at a huge price is free and its rest is paid out (C59_wrapping_price_refuted).
* floria: a transaction with less gas than its intrinsic price is charged, but its nonce is not used up: it can be charged again (C66_replay_refuted).
  With too long an init code it is charged for all gas while the receipt says 0 (C57_oversized).
* floria: a creation whose code is too long, starts with 0xEF or cannot be paid for fails without restoring the snapshot (C65_failed_creation_refuted).
  The nonce 1 of the new account is set before the snapshot and stays if a creation fails; at an address that is taken the creator's nonce is not incremented.
* floria: a precompiled contract or the state contract that fails keeps the value (C67_failed_transfer_refuted); a price of 2^63 gas or more, which geth's
  modexp asks for huge operands, becomes negative: the call succeeds and returns more gas than it got (C67_huge_price_refuted).
* go/tosca: negative revisions are written to JSON but not read; a revision is read out of any text that contains `Revision(n)` (C69_revision_refuted).
* floria: a STATICCALL by the driver to the state contract changes the state (C62 excludes it); init code is passed as call data too; an init code
  of more than 49152 bytes in CREATE makes the processor return an error (by C47); accounts are warmed only for transactions with an access list.
* lfvm conformance testing target: JUMP_TO counts as a step, so `StepN(state, n)` with n > 1 may make fewer EVM steps than evmzero's (C78_steps_refuted,
  C80_two_refuted); a state whose pc is inside push data restarts at pc 0 even with 0 steps, and a pc more than one behind the code, which evmzero's target
  itself produces after a truncated PUSH, panics (C78_position_refuted, C80_behind_refuted). Generated states in which a cold slot has a value
  other than its original one give different SSTORE refunds (C80_cold_refuted).
* ct, specification: `GetCodeHash` (go/ct/st/accounts.go:79-84) drops the result of `hasher.Sum(hash[:])`, so EXTCODEHASH is 0 for every account of the
  conformance tests, in the rules and in the targets alike; the tests cannot tell a correct EXTCODEHASH from one that always answers 0 (modelled as is).
* ct, specification: no rules for some states (C82): most fail for two reasons at once, but SSTORE of a cold slot that adds, deletes or modifies nothing
  (Berlin on) does not fail and is not specified. With an unknown revision on PUSH data two rules contradict each other (C81_unknown_refuted).
  The read only rule of CREATE2 asks for 3 instead of 4 words (harmless).
* ct, driver: positions two or more behind the end of the code make the LFVM target panic, which the driver reports (C83_behind_refuted). The generator makes refunds of
  future calls of up to 2^63; evmzero adds them to its counter in signed arithmetic, so that tests can overflow (excluded in C83 by `answered`). `Eq` compares positions with a
  16 bit code size (C84_size_refuted).
* lfvm, super instructions: opSwap2_Swap1_Pop_Jump converts the target to int32 without the range check of opJump: targets of 2^32 + d jump to d (C77_far_refuted), targets with bit 31 set index the code with a negative number and panic (C77_crash_refuted)
* lfvm: for codes of more than 65536 bytes the 16-bit address of JUMP_TO wraps: the converted code jumps elsewhere (C72_large_refuted); PC beyond 65535
  becomes INVALID and skips the next byte. Such codes can be passed to `Run` only by callers that do not enforce the code size limits.
* lfvm: no check of the call depth (evmzero fails CALL and CREATE beyond depth 1024); a run with empty code and negative gas succeeds.
* lfvm and evmzero: the refund of SSTORE differs if a context reports a slot as cold although it was changed (excluded in `env_ok`); the refund of
  reverted runs differs (C46, C71).
* lfvm: `getHash` of the hash cache reads `entry.hash` after it released the lock; if the entry was evicted and reused meanwhile the thread gets the hash of
  another key (C75_overtaken_refuted; needs as many cache accesses of other threads in between as the cache has entries).
* ct, generators: differences overflow in the solvers for signed types narrower than 64 bits (C85_narrow_types_refuted). The stack generator rejects a position
  that is described by a value and a variable bound to it, and panics for the largest int as position (C86). The storage generator sees conflicting configurations
  of a key only if they are neighbours in the order by status, lets keys bound to the same slot overwrite each other, and does not produce StorageAssigned
  with the new value zero (C87). The transient storage generator violates a non-zero request if the random number is zero, and takes unbound variables for
  variables bound to zero (C88).
* ct, code generator: AddIsCode/AddIsData of a variable that is bound to a position not yet used rebinds the variable (C89_rebound_refuted), so that a state generator's
  BindValue is lost; the test `constraint.pos > minSize` skips positions equal to the size so far (C89_small_refuted); equal requests are rejected (C89_twice_refuted);
  the minimal size ignores the data of PUSH at constant positions (C89_one_variable_refuted, against the comment in code.go:263-266); a bound position of 24576 passes
  the check against MaxCodeSize; positions near 2^63 overflow and panic.
* ct, transaction context generator: a present and an absent blob hash index bound to the same value pass (`maxMustHaveBlobHash > minMustNotHaveBlobHash` should be `>=`), and with index 0
  absent the number of hashes is 0, count - 1 wraps around and unbound present indices get arbitrary values (C91_same_index_refuted, C91_no_index_refuted); unconstrained contexts always
  have exactly one blob hash (C91_tx_count), and a bound index of 2^63 asks for as many hashes.
* ct, block context generator: isInRange takes the block itself for one of the last 256 (`value <= upperBound` should be `<`): C92_itself_refuted, C92_itself_error_refuted; for block numbers 1..255
  `Exclude(blockNumber-256, blockNumber-1)` wraps around and excludes nothing (C92_first_blocks_refuted); positive offsets of unbound variables do not bound the block number, so that
  satisfiable requests fail for small ones (C92_offset_refuted); an offset of -2^63 would be negated to itself.
* ct, accounts generator: the executing account always gets random code, also if it is to be empty (C93_own_refuted); a non-empty account can be given a balance only, which a balance bound then replaces by 0
  (C93_zero_refuted); the same address can be requested warm and cold through two variables (C93_cold_refuted); addresses bound to variables with empty/balance requests count as unused, so a random entry
  may overwrite them (C93_collision_refuted); RandU256Between(0, MaxU256) is always 0 since its range wraps around (C93_full_range_refuted); the kind of a non-empty account is drawn from the global
  `rand`, not from the seeded generator, so that generation is not reproducible.
* ct, state generator: a variable bound to a value of 2^160 or more and to the own address contradicts itself, but a state is generated, and the variable is changed (C94_long_address_refuted); a value given to a
  variable that the code generator also binds is overwritten (C94_rebound_refuted).
* ct, rlz conditions: `<` and `>` count the constant down (up) twice, once in the condition and once in the expression: rules with `gas < 1` or `stackSize < 1` (e.g. too little gas for JUMPDEST, stack underflow of
  all instructions with one operand) never get a state from GenerateSatisfyingState (C95_below_one_refuted); for the balance the bound wraps around, and the state does not satisfy `balance < 1` (C95_balance_refuted);
  `pc != 65535` panics (C95_panics).

Preconditions found to be necessary (each excludes undefined behaviour or a wrong result that the code does not check for):

* `LruCache` with capacity 1 dereferences null in `GetNewHead`; capacity 0 indexes an empty array. `Clear` sets the last entry's successor
  to one past the array (harmless: it is never followed). `InsertOrAssign` of an existing key does not renew it.
* `MemoryExpansionCost` saturates when words^2 >= 2^63; correct prices need gas < 2^54. From a saturated memory growth would be free
  (not reachable by `Execute`, but by `StepN` from such a state; excluded in `step_ok`).
* The profiler indexes its per-depth table by depth + 1 when an instruction calls: depth 1025 is out of range. CALL at depth 1024 still
  issues the message, so the host must reject it. It is not thread-safe, and its debug assertions need a strictly increasing clock.
* `StepN` with `steps = INT32_MAX` overflows its counter; more than 1024 stack elements, or a pc outside the padded code, is undefined.
* JUMP casts the destination to 32 bits after comparing it with the code size: code must not exceed 2^32 bytes.
* The Go host adapter drops the static flag of CALLCODE and DELEGATECALL messages.

## Testing the theorems against wrong programs

`seeded/LOG.jsonl`: one line per mutation of the model. The mutants are made in a scratch copy, the development is rebuilt, and the
failing theorems recorded; for most there is also a witness, an execution whose result differs. Mutants that change nothing observable
are marked as equivalent.
