{"id": "C01", "title": "Execute implements the EVM", "statement": "For every byte code, message, revision (Istanbul..Cancun) and host, the status code, gas left, gas refund, output bytes and the exact sequence of host effects produced by Execute are those of the EVM reference semantics (Yellow Paper rules plus EIPs 150, 1884, 2028, 2200, 2929, 3529, 3541-free, 3198, 3855, 3860, 4844, 1153, 5656).", "quantifier": "all byte strings as code, all messages with gas below 2^54, all six supported revisions, all hosts that obey the EVMC contract, all initial contents of the recycled stack buffer", "why_tests_cant": "the input space is all programs times all hosts; unit tests fix one program and a mock host at a time", "anchors": ["cpp/vm/evmzero/interpreter.cc: Interpret, internal::RunInterpreter, internal::Run, op::Impl<*>", "cpp/vm/evmzero/evmzero.cc: VM::Execute"]}
{"id": "C02", "title": "No undefined behaviour during Execute", "statement": "While executing any code, the interpreter never reads or writes outside the stack buffer, the memory vector, the code buffer or the jump-target buffer, never reads an uninitialised stack slot, never dereferences the null program counter and never overflows a signed 64-bit integer.", "quantifier": "all codes, messages with gas below 2^54, hosts obeying the EVMC contract", "why_tests_cant": "bounds checks are elided on purpose (padding, static stack checks); only a proof over all programs shows that every elided check is redundant", "anchors": ["cpp/vm/evmzero/interpreter.cc: kStopBytePadding, Run, MemoryExpansionCost, CheckJumpDest", "cpp/vm/evmzero/stack.h: Stack", "cpp/vm/evmzero/memory.h: Memory"]}
{"id": "C03", "title": "Execute always terminates", "statement": "Execute halts for every code: every instruction that lets the run continue consumes at least one unit of gas, so at most gas+1 instructions are executed.", "quantifier": "all codes, gas values and hosts obeying the EVMC contract", "why_tests_cant": "non-termination cannot be observed by a finite test", "anchors": ["cpp/vm/evmzero/interpreter.cc: RunInterpreter, OpInfo static_gas, dynamic_gas_costs"]}
{"id": "C04", "title": "Gas conservation and the frame contract", "statement": "Execute never returns more gas than it was given nor a negative amount, returns zero gas on every failure, and gas never increases from one instruction to the next; if all nested calls respect 0 <= gas_left <= gas then so does the caller, so the property composes over arbitrarily deep call trees.", "quantifier": "all codes, gas values, hosts obeying the contract, every intermediate state", "why_tests_cant": "requires an invariant over all instruction sequences and nested calls", "anchors": ["cpp/vm/evmzero/interpreter.cc: Run, CallImpl, CreateImpl, RunInterpreter"]}
{"id": "C05", "title": "Gas refunds are bounded by the gas spent", "statement": "The absolute value of the reported gas refund never exceeds 199 times the gas consumed by the frame (assuming the same of nested calls), hence the 64-bit refund counter cannot overflow.", "quantifier": "all codes, gas values below 2^54, revisions, hosts", "why_tests_cant": "an overflow needs astronomically long runs; tests cannot reach it", "anchors": ["cpp/vm/evmzero/interpreter.cc: Impl<SSTORE>, Impl<SELFDESTRUCT>, CallImpl, CreateImpl"]}
{"id": "C06", "title": "Static calls cannot modify state", "statement": "When the message carries the static flag, the interpreter never invokes set_storage, set_transient_storage, emit_log, selfdestruct, never creates a contract and never issues a CALL that transfers value, and every nested call message carries the static flag.", "quantifier": "all codes, messages with the static flag, hosts", "why_tests_cant": "the forbidden effect may appear after any instruction sequence", "anchors": ["cpp/vm/evmzero/interpreter.cc: disallowed_in_static_call, CallImpl"]}
{"id": "C07", "title": "Jumps only land on real JUMPDEST instructions", "statement": "The jump-target analysis marks exactly those positions holding 0x5B that are instruction starts of the linear disassembly (not push data), and during any execution every executed instruction starts at such an instruction start or in the STOP padding.", "quantifier": "all codes, all executions", "why_tests_cant": "needs induction over the code and over the execution", "anchors": ["cpp/vm/evmzero/opcodes.cc: CalculateValidJumpTargets", "cpp/vm/evmzero/interpreter.cc: CheckJumpDest, Run"]}
{"id": "C08", "title": "Code padding", "statement": "Padding keeps the code as prefix followed by 33 STOP bytes; running off the end of the code stops successfully; a PUSH truncated by the end of the code pushes its immediate zero-extended on the right; no fetch or immediate read goes past the padded buffer.", "quantifier": "all codes, in particular those ending inside a PUSH1..PUSH32", "why_tests_cant": "all code lengths times all push widths at the boundary", "anchors": ["cpp/vm/evmzero/interpreter.cc: PadCode, kStopBytePadding, PushImpl"]}
{"id": "C09", "title": "Stack limits and isolation of recycled stacks", "statement": "During execution the stack height stays within 0..1024; an instruction reports underflow/overflow exactly when the height would leave this range; the result never depends on the contents left in a recycled stack buffer.", "quantifier": "all codes, all executions, all buffer contents", "why_tests_cant": "depends on the whole history of the run and of previous runs sharing buffers", "anchors": ["cpp/vm/evmzero/interpreter.cc: Run", "cpp/vm/evmzero/stack.h: Stack"]}
{"id": "C10", "title": "Memory expansion cost is exact", "statement": "MemoryExpansionCost returns the EVM's quadratic expansion cost for every 256-bit offset and size whenever that cost is below 2^54, and otherwise returns a value of at least 2^54 (so that it is unaffordable) without overflow; zero-sized accesses are free.", "quantifier": "all 256-bit offsets and sizes, all current memory sizes with cost below 2^54", "why_tests_cant": "2^512 argument pairs; the overflow guards matter only at extreme values", "anchors": ["cpp/vm/evmzero/interpreter.cc: Context::MemoryExpansionCost"]}
{"id": "C11", "title": "Memory growth is paid for", "statement": "Memory size is always a multiple of 32, never shrinks, and the quadratic cost of the current size never exceeds the gas consumed so far.", "quantifier": "all executions, every intermediate state", "why_tests_cant": "invariant over all instruction sequences", "anchors": ["cpp/vm/evmzero/memory.h: Grow", "cpp/vm/evmzero/interpreter.cc: MemoryExpansionCost and all its callers"]}
{"id": "C12", "title": "Memory primitives", "statement": "GetSpan, ReadFrom, ReadFromWithSize, WriteTo, MemCopy and Grow change exactly the addressed bytes (zero padding short buffers, memmove semantics for overlapping copies), leave every other byte unchanged, and extend with zeros to the next multiple of 32 only when the size is non-zero.", "quantifier": "all memories, buffers, offsets and sizes with offset + size below 2^62 (larger ones exceed what std::vector can hold or what gas can pay for)", "why_tests_cant": "all offset/size/overlap combinations", "anchors": ["cpp/vm/evmzero/memory.h: Memory"]}
{"id": "C13", "title": "MSTORE/MLOAD round trip", "statement": "MLOAD after MSTORE at the same offset yields the stored word, MSTORE writes the big-endian representation, MSTORE8 writes the low byte and no other byte, and words at disjoint offsets are unaffected.", "quantifier": "all words, offsets and memories", "why_tests_cant": "all values and overlapping offsets", "anchors": ["cpp/vm/evmzero/interpreter.cc: Impl<MLOAD>, Impl<MSTORE>, Impl<MSTORE8>"]}
{"id": "C14", "title": "Arithmetic and comparison instructions", "statement": "ADD, MUL, SUB, DIV, SDIV, MOD, SMOD, ADDMOD, MULMOD, LT, GT, SLT, SGT, EQ, ISZERO compute the mathematical function on unsigned/two's complement 256-bit integers, with division and modulo by zero giving zero and ADDMOD/MULMOD using unbounded intermediates.", "quantifier": "all 256-bit operands", "why_tests_cant": "2^512 or more operand tuples", "anchors": ["cpp/vm/evmzero/interpreter.cc: Impl<ADD>..Impl<ISZERO>"]}
{"id": "C15", "title": "Bitwise, shift, byte and sign-extension instructions", "statement": "AND, OR, XOR, NOT, BYTE, SHL, SHR, SAR and SIGNEXTEND compute their specified function for every operand including shift amounts and indices far out of range.", "quantifier": "all 256-bit operands", "why_tests_cant": "2^512 operand pairs", "anchors": ["cpp/vm/evmzero/interpreter.cc: Impl<AND>..Impl<SAR>, Impl<SIGNEXTEND>"]}
{"id": "C16", "title": "EXP value and cost", "statement": "EXP computes the power modulo 2^256 and charges 10 plus 50 gas per significant byte of the exponent.", "quantifier": "all bases and exponents, all gas values", "why_tests_cant": "2^512 operand pairs", "anchors": ["cpp/vm/evmzero/interpreter.cc: Impl<EXP>"]}
{"id": "C17", "title": "PUSH, DUP, SWAP, POP families", "statement": "PUSHn pushes the n immediate bytes as a big-endian number, DUPn duplicates the n-th element, SWAPn exchanges the top with the (n+1)-th element, POP drops the top; all other stack elements are unchanged.", "quantifier": "all n in range, all stacks and codes", "why_tests_cant": "the word-wise decoding has 32 instantiations times all byte values", "anchors": ["cpp/vm/evmzero/interpreter.cc: PushImpl, DupImpl, SwapImpl, Impl<POP>"]}
{"id": "C18", "title": "Data copy instructions zero-extend their source", "statement": "CALLDATALOAD, CALLDATACOPY, CODECOPY and EXTCODECOPY behave as if the source were followed by infinitely many zero bytes for every 256-bit source offset, and write exactly the requested bytes.", "quantifier": "all sources, 256-bit offsets and affordable sizes", "why_tests_cant": "all offsets including those above 2^64", "anchors": ["cpp/vm/evmzero/interpreter.cc: Impl<CALLDATALOAD>, Impl<CALLDATACOPY>, Impl<CODECOPY>, Impl<EXTCODECOPY>"]}
{"id": "C19", "title": "RETURNDATACOPY bounds", "statement": "RETURNDATACOPY fails exactly when source offset plus size exceeds the return-data size computed without wrap-around, and otherwise copies exactly these bytes.", "quantifier": "all 256-bit offsets and sizes", "why_tests_cant": "wrap-around only for extreme operands", "anchors": ["cpp/vm/evmzero/interpreter.cc: Impl<RETURNDATACOPY>"]}
{"id": "C20", "title": "SHA3 cache transparency", "statement": "Hash returns the keccak of its input for every history of previous Hash calls, for every key length, with the cache enabled or disabled.", "quantifier": "all histories of Hash calls (any keys, any order, any evictions)", "why_tests_cant": "history dependent", "anchors": ["cpp/vm/evmzero/sha3_cache.h: Sha3Cache::Hash", "cpp/vm/evmzero/interpreter.cc: Impl<SHA3>"]}
{"id": "C21", "title": "LruCache behaves as a bounded least-recently-used map", "statement": "For every sequence of Get, InsertOrAssign, GetOrInsert and Clear, the results are those of an abstract recency-ordered association list that holds at most Capacity entries, evicts the least recently used key exactly when a new key is inserted into a full cache, never holds two values for a key.", "quantifier": "all operation sequences, all capacities of at least 2, all key/value types", "why_tests_cant": "unbounded operation histories", "anchors": ["cpp/common/lru_cache.h: LruCache"]}
{"id": "C22", "title": "LruCache pointer safety", "statement": "No operation sequence makes the intrusive list dereference a null or out-of-range pointer although Clear initialises the last successor with an out-of-range address; this holds exactly for capacities of at least 2.", "quantifier": "all operation sequences, all capacities", "why_tests_cant": "pointer corruption shows only after particular histories", "anchors": ["cpp/common/lru_cache.h: Clear, Touch, GetNewHead"]}
{"id": "C23", "title": "LruCache under concurrency", "statement": "If every thread obtains values through GetOrInsert with a maker that is a function of the key, every GetOrInsert returns that function's value for every interleaving of the two critical sections of concurrent GetOrInsert calls.", "quantifier": "all numbers of threads, all interleavings at lock granularity", "why_tests_cant": "all schedules", "anchors": ["cpp/common/lru_cache.h: GetOrInsert, Get, InsertOrAssign"]}
{"id": "C24", "title": "Analysis cache transparency", "statement": "For every history of Execute/StepN/SetOption calls in which equal non-zero code hashes accompany equal codes, each call's result equals that of a VM without caches; a null or zero code hash never hits the cache.", "quantifier": "all call histories, all evictions, all option changes", "why_tests_cant": "history dependent", "anchors": ["cpp/vm/evmzero/evmzero.cc: VM::Execute, VM::StepN, ComputeContractInfo, contract_info_cache_"]}
{"id": "C25", "title": "Stack buffers are exclusively owned", "statement": "At any time two live stacks never share a buffer and no live stack's buffer is in the free list, for every interleaving of construction, copy, assignment, element access and destruction by any number of threads; there is no data race and no deadlock, and every thread sees its stacks behave as if it were alone.", "quantifier": "all schedules of Stack constructions, copies, assignments and destructions", "why_tests_cant": "all interleavings and histories", "anchors": ["cpp/vm/evmzero/stack.cc: Data::Get, Data::Release, Stack copy/assign"]}
{"id": "C26", "title": "Stack buffers are not leaked", "statement": "The number of buffers ever allocated equals the maximum number of simultaneously live stacks (of one thread); with several threads a buffer is allocated only when every existing one is in some thread's hands, and every buffer not in use is in the free list.", "quantifier": "all histories", "why_tests_cant": "all histories", "anchors": ["cpp/vm/evmzero/stack.cc: free_list"]}
{"id": "C27", "title": "SSTORE gas and refund follow EIP-2200/2929/3529", "statement": "For every original, current and new value of a slot, every revision and warmth (a dirty slot being warm), the gas charged and refund granted by SSTORE, with the status reported by a conforming host, equal the EIP formulas.", "quantifier": "all value triples, revisions, warm/cold", "why_tests_cant": "2^768 value triples (nine classes) times revisions times warmth", "anchors": ["cpp/vm/evmzero/interpreter.cc: Impl<SSTORE>", "go/tosca/world_state.go: StorageStatus"]}
{"id": "C28", "title": "Net SSTORE refunds never go negative", "statement": "Over any sequence of SSTOREs to any slots within one transaction starting from the committed values, the accumulated refund is never negative and is determined by the sequence as EIP-3529 prescribes.", "quantifier": "all finite write sequences over any slots", "why_tests_cant": "unbounded histories", "anchors": ["cpp/vm/evmzero/interpreter.cc: Impl<SSTORE> refund switch"]}
{"id": "C29", "title": "Call messages and gas forwarding", "statement": "CALL, CALLCODE, DELEGATECALL and STATICCALL build the nested message prescribed by the EVM (kind, flags, depth+1, recipient, sender, value, code address, input bytes) with gas min(requested, available - available/64) plus a 2300 stipend exactly if value is non-zero, and charge access, value and new-account costs.", "quantifier": "all operands, gas values, revisions, hosts", "why_tests_cant": "all combinations of operands", "anchors": ["cpp/vm/evmzero/interpreter.cc: CallImpl"]}
{"id": "C30", "title": "Contract creation", "statement": "CREATE and CREATE2 charge memory, init-code (Shanghai) and hashing (CREATE2) costs, reject init code over 49152 bytes from Shanghai on, forward gas - gas/64, and push the created address exactly on success, else zero.", "quantifier": "all operands, gas values, revisions, hosts", "why_tests_cant": "all combinations of operands", "anchors": ["cpp/vm/evmzero/interpreter.cc: CreateImpl"]}
{"id": "C31", "title": "Unfunded calls have no effect", "statement": "If the caller's balance is smaller than the transferred value, CALL/CALLCODE/CREATE/CREATE2 do not invoke the host's call, push zero, and the forwarded gas (including stipend) is returned.", "quantifier": "all operands and hosts", "why_tests_cant": "all combinations of operands", "anchors": ["cpp/vm/evmzero/interpreter.cc: CallImpl, CreateImpl"]}
{"id": "C32", "title": "Return-data buffer life cycle", "statement": "After a call instruction RETURNDATASIZE/COPY see exactly the callee's output (empty for a successful creation), they are unaffected by other instructions, and Execute's output is non-empty only for RETURN/REVERT, in which case it is exactly the requested memory range.", "quantifier": "all executions", "why_tests_cant": "history dependent", "anchors": ["cpp/vm/evmzero/interpreter.cc: return_data in CallImpl, CreateImpl, ReturnImpl, RunInterpreter"]}
{"id": "C33", "title": "Revision gating", "statement": "BASEFEE is defined from London, PUSH0 from Shanghai, BLOBHASH/BLOBBASEFEE/TLOAD/TSTORE/MCOPY from Cancun; before that they fail as undefined instructions without consuming stack; all other defined opcodes are available in every supported revision.", "quantifier": "all opcodes, revisions, states", "why_tests_cant": "full cross product with arbitrary machine states", "anchors": ["cpp/vm/evmzero/interpreter.cc: OpInfo::introduced_in"]}
{"id": "C34", "title": "Dispatch completeness", "statement": "The dispatch table has one entry per byte value, entry b implements the instruction whose opcode is b, and every unassigned byte behaves as INVALID.", "quantifier": "all 256 byte values", "why_tests_cant": "positional table; a single missing line shifts all later opcodes", "anchors": ["cpp/vm/evmzero/opcodes.inc", "cpp/vm/evmzero/opcodes.h", "cpp/vm/evmzero/interpreter.cc: dispatch_table"]}
{"id": "C35", "title": "Result status mapping", "statement": "Execute reports success exactly if the program ended by STOP, RETURN, SELFDESTRUCT or running off the end, revert exactly for REVERT, and otherwise a distinct failure status as mandated; step status and status code agree.", "quantifier": "all executions", "why_tests_cant": "all executions", "anchors": ["cpp/vm/evmzero/evmzero.cc: ToEvmcStatusCode, ToEvmcStepStatusCode, ToRunStateCode"]}
{"id": "C36", "title": "Stepping zero steps is the identity", "statement": "StepN with a non-positive step count or a non-running status executes nothing: pc, stack (including element order) and refund are returned unchanged, memory is returned zero-padded to a multiple of 32, and for a running status gas and return data are unchanged too.", "quantifier": "all states", "why_tests_cant": "all states", "anchors": ["cpp/vm/evmzero/evmzero.cc: VM::StepN", "cpp/vm/evmzero/interpreter.cc: InterpretNSteps"]}
{"id": "C37", "title": "Stepping composes", "statement": "Executing n+m steps in one StepN call gives the same state as executing n steps and feeding the result into a StepN call with m steps, as long as the execution does not fail.", "quantifier": "all states, all n and m", "why_tests_cant": "all states and splits", "anchors": ["cpp/vm/evmzero/evmzero.cc: VM::StepN", "cpp/vm/evmzero/interpreter.cc: RunInterpreter<_, true>"]}
{"id": "C38", "title": "Stepping and executing agree", "statement": "Stepping from the initial state to completion gives the same status, gas, refund, output and host effects as Execute, for every way of splitting the run into StepN calls.", "quantifier": "all codes, messages, hosts and splits", "why_tests_cant": "JUMP/JUMPDEST fusion exists only in Execute mode; all programs", "anchors": ["cpp/vm/evmzero/interpreter.cc: Run (Stepping), RunInterpreter"]}
{"id": "C39", "title": "A failed step leaves the stack of the failing instruction", "statement": "After a StepN call for one step whose instruction fails, the reported stack, memory and refund are those passed in. After a call for several steps the reported stack has the height of the stack passed in; it need not be the stack of the failing instruction (proved counterexample).", "quantifier": "all states and step counts", "why_tests_cant": "all states and programs; single-step tests do not see the difference for batches", "anchors": ["cpp/vm/evmzero/interpreter.cc: RunInterpreter end: top = ctx.stack.Top()"]}
{"id": "C40", "title": "Observers do not influence execution", "statement": "Execute returns the same result and performs the same host effects whether logging, profiling, external profiling or nothing is enabled.", "quantifier": "all codes, messages (depth at most 1024), hosts, observer states", "why_tests_cant": "all executions", "anchors": ["cpp/vm/evmzero/interpreter.cc: Interpret<Observer>, RunInterpreter", "cpp/vm/evmzero/logger.h", "cpp/vm/evmzero/profiler.h"]}
{"id": "C41", "title": "Profiler counts", "statement": "After any sequence of completed executions with their nested runs, the profile's count of each opcode has grown by the number of times that opcode was dispatched in them (only those that call, create or consult the host in external mode), as 64-bit counters; undefined bytes are counted as INVALID, and a JUMPDEST that a jump lands on is executed as part of the jump and not counted (proved counterexample to counting every executed instruction). The interpreter count grows by the number of depth-0 executions, merging adds counts, and reset clears them.", "quantifier": "all sequences of executions and nested run trees", "why_tests_cant": "all execution trees", "anchors": ["cpp/vm/evmzero/profiler.h: Profiler, Profile", "cpp/vm/evmzero/interpreter.cc: RunInterpreter (PreInstruction, PostInstruction), JUMP/JUMPI"]}
{"id": "C42", "title": "Profiler array bounds and time accounting", "statement": "For depths 0..1024 the profiler never indexes outside its per-depth table, and the ticks attributed to a call instruction are its duration minus that of the nested interpreter run, never underflowing for a monotone clock.", "quantifier": "all nested run trees, all monotone clocks", "why_tests_cant": "all execution trees and clocks", "anchors": ["cpp/vm/evmzero/profiler.h: call_data_, PreInstruction, PostInstruction"]}
{"id": "C43", "title": "Option handling", "statement": "SetOption accepts exactly the five documented names with values true/false, changes only the named option, and rejects everything else without changing anything.", "quantifier": "all name and value strings", "why_tests_cant": "all strings", "anchors": ["cpp/vm/evmzero/evmzero.cc: VM::SetOption"]}
{"id": "C44", "title": "Effects are paid for", "statement": "A failing instruction other than SSTORE has changed the host state at most by accessing accounts and slots: no transient write, log, self-destruct or nested call is made by an instruction that then fails. An SSTORE with at most 2300 gas leaves the host untouched. An SSTORE with more gas than that but less than its price does write before it fails (proved counterexample), so hosts must undo the effects of failed executions.", "quantifier": "all executions", "why_tests_cant": "all executions", "anchors": ["cpp/vm/evmzero/interpreter.cc: Impl<SSTORE>, LogImpl, Impl<SELFDESTRUCT>, CallImpl, CreateImpl, Impl<TSTORE>"]}
{"id": "C45", "title": "BLOCKHASH and BLOBHASH windows", "statement": "BLOCKHASH queries the host exactly for the 256 most recent complete blocks and otherwise yields zero; BLOBHASH yields the indexed hash if the index is in range and zero otherwise.", "quantifier": "all 256-bit operands, block numbers and blob lists", "why_tests_cant": "all operands", "anchors": ["cpp/vm/evmzero/interpreter.cc: Impl<BLOCKHASH>, Impl<BLOBHASH>"]}
{"id": "C46", "title": "Refunds of unsuccessful executions", "statement": "An execution that fails reports the refund counter as it was before the failing instruction. It is not zeroed for reverted or failed executions, and callers add the refunds of unsuccessful callees to their own (both proved by counterexample), so hosts must drop them.", "quantifier": "all executions", "why_tests_cant": "all executions, nested", "anchors": ["cpp/vm/evmzero/interpreter.cc: Interpret (refunded_gas), CallImpl (gas_refunds += result.gas_refund)", "go/interpreter/evmc/evmc_interpreter.go: Run", "go/processor/floria/run_context.go: Call"]}
{"id": "C47", "title": "Results as Go callers see them", "statement": "The Go Interpreter.Run reports success, output, gas and refund of successful and reverted executions unchanged, and a failed execution as an unsuccessful result without output, gas and refund, with one exception: an execution that fails because a CREATE or CREATE2 has more than 49152 bytes of init code (Shanghai on) is reported as a VM error (proved counterexample).", "quantifier": "all failure states", "why_tests_cant": "needs every failing program class", "anchors": ["cpp/vm/evmzero/evmzero.cc: ToEvmcStatusCode", "go/interpreter/evmc/evmc_interpreter.go: Run"]}
{"id": "C48", "title": "Log instructions", "statement": "LOG0..LOG4 emit one log for the executing account with exactly the addressed memory bytes and topics in stack order and charge 375 per log and topic plus 8 per byte plus memory expansion.", "quantifier": "all operands and memories", "why_tests_cant": "all operands", "anchors": ["cpp/vm/evmzero/interpreter.cc: LogImpl"]}
{"id": "C49", "title": "SELFDESTRUCT", "statement": "SELFDESTRUCT charges 5000, plus 25000 if the account has balance and the beneficiary does not exist, plus 2600 for a cold beneficiary from Berlin, grants 24000 refund before London exactly for the first destruction, and stops successfully.", "quantifier": "all operands, revisions, hosts", "why_tests_cant": "all operands", "anchors": ["cpp/vm/evmzero/interpreter.cc: Impl<SELFDESTRUCT>"]}
{"id": "C50", "title": "Out-of-range pointers are only formed for empty accesses", "statement": "The memory primitives form no pointer outside the allocation for an access of at least one byte. For empty accesses beyond the end of memory, and for the stack pointer of a failing instruction, a pointer outside the allocation is formed (never used: C02); proved by counterexample.", "quantifier": "all executions", "why_tests_cant": "silent on common hardware, undefined in C++", "anchors": ["cpp/vm/evmzero/memory.h: GetSpan, ReadFrom, WriteTo, MemCopy", "cpp/vm/evmzero/interpreter.cc: RUN_OPCODE top -= GetStackDelta()"]}
{"id": "C51", "title": "The instruction log", "statement": "With logging on, an execution appends to the log exactly one line for each dispatched instruction of the run and of the runs nested in it, in execution order, showing the opcode, the gas left and the stack top before the instruction; with logging off the log does not change.", "quantifier": "all codes, messages, hosts, observer states", "why_tests_cant": "all execution trees", "anchors": ["cpp/vm/evmzero/logger.h", "cpp/vm/evmzero/interpreter.cc: RunInterpreter"]}
{"id": "C52", "title": "Environment values", "statement": "ADDRESS, ORIGIN, CALLER, CALLVALUE, CALLDATASIZE, CODESIZE, GASPRICE, the block values, SELFBALANCE, BASEFEE, BLOBBASEFEE, PUSH0, PC, MSIZE, GAS and RETURNDATASIZE push exactly the value of the message, the transaction, the host or the machine they name, for their fee, in the revisions that have them, and change nothing else.", "quantifier": "all machine states, messages, hosts, revisions", "why_tests_cant": "all states and hosts", "anchors": ["cpp/vm/evmzero/interpreter.cc: Impl<ADDRESS>..Impl<BLOBBASEFEE>, Impl<PC>, Impl<MSIZE>, Impl<GAS>, Impl<RETURNDATASIZE>"]}
{"id": "C53", "title": "Account queries", "statement": "BALANCE, EXTCODESIZE and EXTCODEHASH ask the host about the low 160 bits of their operand, cost 700 before Berlin and then 2600 for the first and 100 for later accesses of the account as recorded by the host, and with less gas fail out of gas.", "quantifier": "all operands, states, hosts, revisions", "why_tests_cant": "all operands and access histories", "anchors": ["cpp/vm/evmzero/interpreter.cc: Impl<BALANCE>, Impl<EXTCODESIZE>, Impl<EXTCODEHASH>"]}
{"id": "C54", "title": "Reading storage and transient storage", "statement": "SLOAD reads the executing account's slot, costs 800 before Berlin and then 2100 for the first and 100 for later accesses of the slot as recorded by the host, and fails out of gas with less; TLOAD and TSTORE cost 100 and read and write the executing account's transient slot, from Cancun.", "quantifier": "all keys, values, states, hosts, revisions", "why_tests_cant": "all keys and access histories", "anchors": ["cpp/vm/evmzero/interpreter.cc: Impl<SLOAD>, Impl<TLOAD>, Impl<TSTORE>"]}
{"id": "C55", "title": "Order of conditions and base fees", "statement": "An instruction is checked for being assigned, for being part of the revision, for static mode, for stack underflow, for stack overflow and for its base fee, in this order; the first violated condition determines the status, and nothing else has then changed. If none is violated the instruction does not fail for the stack, removes and adds the documented number of elements and costs at least its base fee.", "quantifier": "all bytes, machine states, messages, revisions, hosts", "why_tests_cant": "all combinations of violated conditions", "anchors": ["cpp/vm/evmzero/interpreter.cc: RUN_OPCODE, CheckStackLimits, CheckOpcodeAvailable, OpInfo"]}
{"id": "C56", "title": "Transactions always come to an end", "statement": "The transaction processor's Run returns for every transaction, whatever code the accounts hold, and its receipt and the state it leaves depend only on the state before, the block and the transaction - not on the VM's options, caches, earlier transactions, stack buffers or clock. So does every Call, whose result has at most the gas it was given.", "quantifier": "all transactions, states, blocks, contexts, VM histories", "why_tests_cant": "all call trees of all contracts, all VM histories", "anchors": ["go/processor/floria/processor.go: Run", "go/processor/floria/run_context.go: Call"]}
{"id": "C57", "title": "Transactions that are not run", "statement": "A transaction with a wrong or exhausted nonce, a sender that is a contract, or too little money for the gas, changes nothing and gets an unsuccessful receipt. One whose gas limit is below its intrinsic price is charged its gas limit. One with too long an init code (Shanghai on) is charged for all gas but reports none.", "quantifier": "all transactions, states, revisions", "why_tests_cant": "all combinations of conditions", "anchors": ["go/processor/floria/processor.go: Run, nonceCheck, eoaCheck, buyGas, setupGasBilling"]}
{"id": "C58", "title": "Transactions that are run", "statement": "Every other transaction is one Call, made after the gas is paid for, the access list is accessed and the nonce is incremented, with the gas limit less the intrinsic price; a tenth of the gas left is charged unless the sender is the zero address, refunds are limited to a half (London on: a fifth) of the gas used, and the rest is paid back. The gas used is at least the intrinsic price less that fraction, and for unsuccessful transactions between the intrinsic price and the limit.", "quantifier": "all transactions, states, revisions, contexts", "why_tests_cant": "all results of all contracts", "anchors": ["go/processor/floria/processor.go: Run, setUpAccessList, calculateGasLeft, refundGas", "go/processor/floria/run_context.go: Call"]}
{"id": "C59", "title": "The money supply", "statement": "A transaction of anyone but the driver decreases the sum of all balances at least by the price of the gas used, and exactly by it if SELFDESTRUCT loses no money - provided that price times limit is below 2^256 and the gas used is at most the limit. Neither follows from the code: with a price of 2^241 the gas is free and unused gas is paid out, and a contract whose callees revert after changing a cleared slot makes the refund negative, so that a negative amount of gas left is paid out as a 64 bit number (both proved by counterexample).", "quantifier": "all transactions, states, contracts, contexts", "why_tests_cant": "all call trees and all ways to move money", "anchors": ["go/processor/floria/processor.go: buyGas, refundGas, calculateGasLeft", "go/processor/floria/run_context.go: transferValue, Call", "go/tosca/types.go: Value.Scale"]}
{"id": "C60", "title": "Plain transfers", "statement": "A transaction to an account without code moves exactly the value to the recipient and takes value and gas price from the sender, increments the sender's nonce, and changes no other balance, nonce or code; if the sender cannot pay the value all gas is charged and nothing else happens.", "quantifier": "all transactions and states", "why_tests_cant": "all states, including transfers to oneself", "anchors": ["go/processor/floria/processor.go: Run", "go/processor/floria/run_context.go: Call, transferValue"]}
{"id": "C61", "title": "Calls", "statement": "A Call transfers the value, then runs the code of the called (for CALLCODE and DELEGATECALL: the code) account as the EVM does, one level deeper, in static mode if the caller was or for STATICCALL; a call that fails or returns an error leaves the state as it was. Calls of accounts without code return all gas; calls deeper than 1024 or without the money fail with no gas left.", "quantifier": "all calls, states, depths, contracts", "why_tests_cant": "all call trees", "anchors": ["go/processor/floria/run_context.go: Call"]}
{"id": "C62", "title": "Static calls", "statement": "A STATICCALL, with everything it calls, changes nothing but the sets of accessed accounts and slots - unless the driver account makes it.", "quantifier": "all calls, states, contracts", "why_tests_cant": "all call trees", "anchors": ["go/processor/floria/run_context.go: Call", "go/interpreter/evmc/evmc_interpreter.go: Call"]}
{"id": "C63", "title": "Other people's accounts", "statement": "A transaction of anyone but the driver does not change code and nonce of an account that has been used and is not a contract, and does not decrease its balance; the sender pays at most value and gas used.", "quantifier": "all transactions, states, contracts", "why_tests_cant": "all call trees of adversarial contracts", "anchors": ["go/processor/floria/processor.go: Run", "go/processor/floria/run_context.go: Call", "go/processor/floria/state_contract.go: handleStateContract"]}
{"id": "C64", "title": "The state contract", "statement": "The state contract obeys the driver account only; a call of it sets a balance, copies or swaps code, sets a slot or increments a nonce exactly as the method and its ABI-encoded arguments say, for the method's price; the driver's own balance and nonce cannot be set, nonces are incremented by 1 to 255; everything else fails without a change.", "quantifier": "all calls of the state contract", "why_tests_cant": "all inputs", "anchors": ["go/processor/floria/state_contract.go"]}
{"id": "C65", "title": "Creating contracts", "statement": "A creation at an address that has a nonce or code fails; otherwise the nonces of creator and new account are set, the value is transferred and the init code is run. If it succeeds with a code of at most 24576 bytes that does not start with 0xEF (London on) and can be paid for at 200 gas per byte, that is the new account's code. If it fails only the nonces remain; but if the code that it returns is not acceptable everything remains, though the creation fails (proved counterexample).", "quantifier": "all creations, states, init codes", "why_tests_cant": "all init codes and results", "anchors": ["go/processor/floria/run_context.go: Call, createAddress"]}
{"id": "C66", "title": "No replays", "statement": "After a transaction was run the nonce of its sender is one more, so that the same transaction is refused in every later block. A transaction with too little gas is charged without that and can be charged again (proved counterexample).", "quantifier": "all transactions, states, contracts", "why_tests_cant": "all call trees, histories of two transactions", "anchors": ["go/processor/floria/processor.go: Run, nonceCheck", "go/processor/floria/run_context.go: Call"]}
{"id": "C67", "title": "Precompiled contracts", "statement": "A call of a precompiled contract transfers the value and returns the contract's output for its price, all gas being lost if there is too little; if the contract fails the gas left is returned. A value that was transferred to a failing precompiled contract is not returned, and a price of 2^63 gas or more is negative (both proved by counterexample).", "quantifier": "all calls, inputs, contracts", "why_tests_cant": "all inputs", "anchors": ["go/processor/floria/precompiled.go: handlePrecompiledContract", "go/processor/floria/run_context.go: Call"]}
{"id": "C68", "title": "Values of the Go interface", "statement": "Add and Sub on 32-byte values are addition and subtraction modulo 2^256, Cmp compares the numbers, NewValue composes up to four 64-bit words (most significant first), and SizeInWords rounds up to words for every 64-bit size without overflow.", "quantifier": "all 32-byte values, all 64-bit numbers", "why_tests_cant": "2^512 operand pairs; carries across limbs", "anchors": ["go/tosca/types.go: Add, Sub, Cmp, NewValue", "go/tosca/utils.go: SizeInWords"]}
{"id": "C69", "title": "Texts of the Go interface", "statement": "Addresses and values that are written as text are read back unchanged, and a text that is read has the right length and is, up to the case of its digits, what would be written; call kinds and revisions are read back as well. Negative revisions are not, and a revision is found in the middle of other text (proved counterexamples).", "quantifier": "all byte strings, texts, call kinds and revisions", "why_tests_cant": "all texts", "anchors": ["go/tosca/types.go: MarshalText, UnmarshalText, CallKind", "go/tosca/revisions.go: MarshalJSON, UnmarshalJSON"]}
{"id": "C70", "title": "The Go interpreter implements the EVM", "statement": "For every code of up to 65536 bytes, all parameters, revisions and run contexts, Run of the LFVM interpreter (without super instructions) neither panics nor loops and returns success, output, gas left and refund as the EVM reference demands, where a reverted run keeps its output and gas but no refund and a failed run keeps nothing; after success or revert the state of the run context is the one the EVM leads to.", "quantifier": "all codes of up to 65536 bytes, parameters with gas below 2^54 and depth up to 1024, revisions Istanbul to Cancun, run contexts and answers to nested calls that keep the gas contract", "why_tests_cant": "all programs times all contexts; the interpreter runs a converted code with other positions than the original, so every instruction sequence matters", "anchors": ["go/interpreter/lfvm/lfvm.go: Run", "go/interpreter/lfvm/interpreter.go: run, steps, generateResult, checkStackLimits", "go/interpreter/lfvm/instructions.go", "go/interpreter/lfvm/memory.go", "go/interpreter/lfvm/gas.go", "go/interpreter/lfvm/converter.go"]}
{"id": "C71", "title": "LFVM and evmzero agree", "statement": "With the same run context, state and parameters, Run of LFVM and Run of evmzero return the same success, output and gas left; when a run succeeds also the same refund and the same state. Where evmzero returns an error (init code over the limit, C47), LFVM returns a failed run. The refund that evmzero reports for runs that did not succeed is dropped by LFVM.", "quantifier": "as C70, with every reachable state of the evmzero VM", "why_tests_cant": "differential tests compare finitely many programs", "anchors": ["go/interpreter/lfvm/lfvm.go: Run", "go/interpreter/evmzero/evmzero.go: Run", "go/interpreter/evmc/evmc_interpreter.go: Run"]}
{"id": "C72", "title": "Conversion keeps jump destinations", "statement": "The conversion of a code of up to 65536 bytes never panics and puts a JUMPDEST exactly at those positions at which the EVM code has a jump destination, with and without super instructions, so that jumps need no translation. Beyond 65536 bytes the addresses of JUMP_TO are truncated and the result is wrong (proved counterexample).", "quantifier": "all byte strings of up to 65536 bytes", "why_tests_cant": "all codes; misplaced destinations need particular combinations of push data and positions", "anchors": ["go/interpreter/lfvm/converter.go: convert, appendInstructions, codeBuilder"]}
{"id": "C73", "title": "Tables of the Go interpreter", "statement": "For every instruction and stack height the static stack check of LFVM accepts exactly when the instruction finds its operands and leaves at most 1024 elements, and the static price is the EVM's fee (with the fixed access fees of Istanbul included).", "quantifier": "all op codes, revisions, stack heights", "why_tests_cant": "an entry of a table is wrong for one op code at one height", "anchors": ["go/interpreter/lfvm/stack_usage.go: computeStackUsage", "go/interpreter/lfvm/gas.go: getStaticGasPrices", "go/interpreter/lfvm/interpreter.go: checkStackLimits"]}
{"id": "C74", "title": "Keccak-256", "statement": "The hash functions of the Go interpreter compute Keccak-256 (the sponge of FIPS 202 with Keccak's own padding) for byte strings of every length, without reading or writing outside their arrays; the special function for 32 bytes agrees.", "quantifier": "all byte strings", "why_tests_cant": "infinitely many inputs; block, word and padding boundaries; rotation and round constants of the unrolled rounds", "anchors": ["go/interpreter/lfvm/keccak.h: keccak, keccakf1600_implementation, tosca_lfvm_keccak256, tosca_lfvm_keccak256_32byte", "go/interpreter/lfvm/keccak.go: Keccak256, Keccak256For32byte"]}
{"id": "C75", "title": "The hash cache of the Go interpreter", "statement": "Hashing through the cache of recent hashes returns the Keccak-256 of the data for every history of calls. Threads that share the cache never get stuck and never dereference nil, the cache keeps at most its capacity of entries, and each thread gets the right hash unless the threads entered the cache at least capacity times between its lookup and its return. In that case it may get the hash of another key, since the entry is read after the lock was released (proved counterexample).", "quantifier": "all capacities, histories of keys, interleavings of any number of threads", "why_tests_cant": "all histories and schedules", "anchors": ["go/interpreter/lfvm/hash_cache.go: newSha3HashCache, hash, newHashCache, getHash, getFree"]}
{"id": "C76", "title": "Cached conversions", "statement": "Convert returns the conversion of the given code whatever is in the cache of converted codes, for every interleaving of threads that use the same interpreter, provided that codes passed with the same hash are the same; so Run returns what the EVM demands regardless of earlier and concurrent runs. Codes of more than 24576 instructions are never kept; cache sizes from 1 to 98303 are refused, 0 means the default and a negative size no cache. With dishonest hashes another code is run (proved counterexample).", "quantifier": "all histories and interleavings of conversions, all behaviours of an LRU cache that only returns what was added", "why_tests_cant": "all histories and schedules", "anchors": ["go/interpreter/lfvm/converter.go: NewConverter, Convert", "go/interpreter/lfvm/lfvm.go: Run"]}
{"id": "C77", "title": "Super instructions", "statement": "With the super instruction option (lfvm-si and its variants), Run of LFVM returns what the EVM reference demands, exactly as without the option, for every code whose returns - executions of the byte sequence SWAP2 SWAP1 POP JUMP - have targets below 2^31, in particular for every code that does not contain the sequence. Without the condition the property is false: the super instruction for this sequence has no range check, so a target of 2^32 + d jumps to d where the EVM fails, and a target of 2^31 makes Run panic (both proved).", "quantifier": "all codes of up to 65536 bytes, parameters, revisions and run contexts as in C70, whose executions meet the condition on returns", "why_tests_cant": "every sequence of instructions that the converter groups, at every position relative to jump destinations, with every stack and amount of gas", "anchors": ["go/interpreter/lfvm/super_instructions.go", "go/interpreter/lfvm/converter.go: appendSuperInstructions, appendInstructions", "go/interpreter/lfvm/gas.go: getStaticGasPrices", "go/interpreter/lfvm/stack_usage.go", "go/interpreter/lfvm/opcode.go: decompose"]}
{"id": "C78", "title": "The LFVM conformance testing target makes EVM steps", "statement": "StepN of the LFVM target, asked for one step from a running state that stands at an instruction (or right behind the code), returns the state after one step of the EVM - up to what is not compared in states -, for every state; any number of such calls in sequence makes as many steps of the EVM. Newer revisions are reported, states that are not running stay as they are. Asked for n steps it makes between n/2 and n: the jump over the padding in front of a JUMPDEST counts as a step (proved counterexample to n steps). A position inside push data becomes position 0, a position further behind the code is an index out of range (proved).", "quantifier": "all states with components in range, codes of up to 65500 bytes, numbers of steps, revisions Istanbul to Cancun, run contexts as in C70", "why_tests_cant": "every instruction in every state; positions are translated back and forth through maps that depend on the whole code", "anchors": ["go/interpreter/lfvm/ct.go: StepN, genPcMap, getPcMap", "go/interpreter/lfvm/converter.go: convertWithObserver", "go/ct/utils/adapter.go: ToVmParameters", "go/ct/st/state.go: State"]}
{"id": "C79", "title": "The evmzero conformance testing target makes EVM steps", "statement": "StepN of the evmzero target, asked for n steps from a running state, returns the state after n steps of the EVM (or after its end), whatever the VM was used for before, from every position in the code or up to 32 behind it.", "quantifier": "all states with components in range, positions, numbers of steps, revisions, reachable states of the VM, hosts", "why_tests_cant": "every instruction in every state, any number of steps", "anchors": ["go/interpreter/evmc/evmc_steppable_interpreter.go: StepN", "go/interpreter/evmzero/ct.go", "cpp/vm/evmzero/evmzero.cc: StepN"]}
{"id": "C80", "title": "Conformance testing targets agree", "statement": "From every running state that stands at an instruction, one step of the LFVM target and one step of the evmzero target lead to states that the state comparison accepts; the comparison accepts two states exactly if both failed, or both ended alike with the same gas, refund, world and result, or both run with the same observable components (all positions behind the code being the same). Not true for two steps at once, for positions behind the code that evmzero produces, and for states in which a slot was changed but counts as not accessed (proved counterexamples).", "quantifier": "all states and run contexts as in C78, all pairs of states", "why_tests_cant": "the targets are compared on generated states only; a comparison that accepts too much hides errors", "anchors": ["go/ct/st/state.go: Eq", "go/interpreter/lfvm/ct.go: StepN", "go/interpreter/evmc/evmc_steppable_interpreter.go: StepN"]}
{"id": "C81", "title": "The conformance specification describes the EVM", "statement": "For every test state (running, memory of whole words, no result yet) of a known revision that does not stand on PUSH data, every rule the specification finds for it has an effect that does not panic and that leads to the state the EVM reaches with one step from there, for all instructions and revisions, including gas, refunds, storage, access lists, logs, journals of calls and self destructs; so the rules found for a state never contradict each other. The rules found are exactly those whose conditions hold. States that are not running, and positions of PUSH data, are left alone by all their rules, an unknown revision fails. Not true of an unknown revision on PUSH data, where two rules contradict each other, of memory that is no number of words, and of running states that have a result already (proved counterexamples).", "quantifier": "all states with components in range, all revisions, transactions, block contexts, hash functions, journals of future calls", "why_tests_cant": "the rules are the tests: nothing checks them but the implementations they are meant to test, on generated states only", "anchors": ["go/ct/spc/specification.go: getAllRules", "go/ct/spc/specification_map.go: GetRulesFor", "go/ct/rlz/conditions.go", "go/ct/rlz/expressions.go", "go/ct/st/memory.go", "go/ct/st/call_journal.go", "go/ct/utils/adapter.go: ctRunContext"]}
{"id": "C82", "title": "Coverage of the conformance specification", "statement": "Every test state of a known revision that does not stand on PUSH data has a rule, except for exactly: PUSH0 before Shanghai without its gas or with 1023 words on the stack; JUMP and JUMPI without enough gas that would fail for another reason or not be taken; LOG and SSTORE in static frames without enough gas; SSTORE that adds, deletes or modifies no value with exactly 2300 gas, or of a cold slot from Berlin on. In all of them but the last the EVM fails; in the last it may go on, so such behaviour is not specified (proved counterexample).", "quantifier": "all states with components in range, all revisions, transactions and block contexts", "why_tests_cant": "coverage is a statement about all states; tests only see states that are generated from rules", "anchors": ["go/ct/spc/specification.go: getAllRules, rulesFor, sstoreOpRegular, logOp", "go/ct/spc/specification_map.go: GetRulesFor"]}
{"id": "C83", "title": "Conformance tests find exactly the deviations", "statement": "For every test state of a known revision whose instruction's call, if it makes one, gets an answer that keeps the gas contract, the conformance test driver passes the LFVM target (positions up to the end of the code) and the evmzero target (positions up to 32 behind it), whichever rules the user filters for; states that are not running and unknown revisions give no issues. For any target, a test of a state that has a rule is passed exactly if StepN(state, 1) returns no error and a state like the one the EVM gets to by one step. Two behind the end of the code the LFVM target panics and is reported (proved); deviations in states without rules are not found (proved for SSTORE of a cold slot).", "quantifier": "all states with components in range, all revisions, filters, transactions, block contexts, targets", "why_tests_cant": "the driver runs on generated states only; that no state makes it report a correct target, or overlook a wrong one, is a statement about all states", "anchors": ["go/ct/driver/run.go: runTest, opRun", "go/ct/utils/adapter.go", "go/interpreter/lfvm/ct.go: StepN", "go/interpreter/evmzero/ct.go: StepN", "go/ct/spc/specification.go"]}
{"id": "C84", "title": "Comparison of conformance test states", "statement": "State.Eq, with the comparisons of storage, transient storage, accounts, logs, call journal, self destruct journal and block hashes, says that two states are equal exactly if they are alike: all failed states are; stored values are compared as functions of the key (missing entries are zero), original values and accounts entry by entry, sets as sets, sequences exactly; running states also in position (all positions behind the code are one), stack, memory and return data, others in their result. For codes of 2^16 bytes and more positions are confused (proved counterexample).", "quantifier": "all pairs of states with codes of less than 2^16 bytes", "why_tests_cant": "equality of maps and sets is a statement about all keys", "anchors": ["go/ct/st/state.go: Eq", "go/ct/st/storage.go: Eq, mapEqualIgnoringZeroValues", "go/ct/st/transient_storage.go: Eq", "go/ct/st/accounts.go: Eq", "go/ct/st/logs.go: Eq", "go/ct/st/call_journal.go: Equal"]}
{"id": "C85", "title": "Solvers of integer constraints in the conformance test generators", "statement": "For all sequences of constraints: RangeSolver and IntervalSolver report unsatisfiable exactly if no value of the type obeys all constraints given; the values they generate obey all of them, and every value that does can be generated. Satisfiability queries answer accordingly. Not for signed types narrower than 64 bits (proved counterexample).", "quantifier": "all integer types, sequences of lower and upper bounds, equalities and exclusions (also ranges), random numbers", "why_tests_cant": "a test draws some values; that none of the solutions is lost or added by splitting intervals is a statement about all sequences of constraints and all values", "anchors": ["go/ct/gen/range_solver.go: RangeSolver", "go/ct/gen/interval_solver.go: IntervalSolver"]}
{"id": "C86", "title": "Stack generator of the conformance tests", "statement": "For all requests (bounds on the size, values and variables at positions) the stack generator returns only stacks of at most 1024 words that fulfil all of them, reports unsatisfiable only if there is no such stack or a position is described twice, reports an unbound variable exactly if there is one, and never panics; every stack that fulfils the requests can be generated. A position described by a value and a variable is rejected although a stack exists; the largest int as position panics (proved counterexamples).", "quantifier": "all sequences of requests, assignments, random numbers, previous contents of the pooled stack", "why_tests_cant": "random generator: each run sees one output", "anchors": ["go/ct/gen/stack.go: StackGenerator", "go/ct/st/stack.go: NewStackWithSize"]}
{"id": "C87", "title": "Storage generator of the conformance tests", "statement": "A storage generated for requests (one configuration per key, different keys bound to different slots) makes the write of the value of each requested variable to the slot of its key have the requested storage status, and slots warm or cold as requested, and extends the assignment; an error is reported only for requests in conflict; generation ends with fair random numbers. Conflicting configurations can be missed, and keys bound to the same slot overwrite each other (proved counterexamples).", "quantifier": "all sequences of requests, assignments, sequences of random numbers", "why_tests_cant": "random generator with retry loops: each run sees one output", "anchors": ["go/ct/gen/storage.go: StorageGenerator", "go/tosca/world_state.go: GetStorageStatus"]}
{"id": "C88", "title": "Transient storage generator of the conformance tests", "statement": "In whatever order the map of constraints is iterated, a generated transient storage is zero at the locations requested zero and, unless a random number is zero, non-zero at those requested non-zero; an error is reported only if the requests cannot be fulfilled or a variable bound to zero was confused with an unbound one; generation ends with fair random numbers. Both exceptions happen (proved counterexamples).", "quantifier": "all sequences of requests, assignments, iteration orders, sequences of random numbers", "why_tests_cant": "random generator with retry loops over a map in random order", "anchors": ["go/ct/gen/transient_storage.go: TransientStorageGenerator"]}
{"id": "C89", "title": "Code generator of the conformance tests", "statement": "A code generated for requests (operations at positions, operations at variables, variables naming code or data) has at most 24576 bytes, has each requested operation at an instruction start of its disassembly, and its updated assignment lets variables name instructions and PUSH data as requested; bound variables keep their values unless requested to name code or data; generation always ends, without panic. For operations at different known positions every code that fulfils the requests can be generated, and one is found whenever the random size is large enough. Requests to name code or data rebind variables, an operation requested twice is rejected, and so are some satisfiable requests if the random size is small (proved counterexamples).", "quantifier": "all sequences of requests, assignments, random numbers", "why_tests_cant": "random generator with search loops: each run sees one output", "anchors": ["go/ct/gen/code.go: CodeGenerator, varCodeConstraintSolver", "go/tosca/vm/opcodes.go: Width, ValidOpCodesNoPush", "go/ct/st/code.go: MaxCodeSize"]}
{"id": "C90", "title": "States under test behave as a world", "statement": "After every history of operations of the conformance tests' run context: a slot of storage and of transient storage holds the value last written to it and otherwise what it held before; writes are classified by the original value, which stays, the present and the new value; exactly what was warm or has been accessed is warm; only the first destruction is reported as the first; logs, calls and destructions are recorded in order; the n-th call gets the n-th prepared answer; balances and codes stay; the hashes of the last 256 blocks and no others are known. Slots are shared by all contracts, and code hashes are zero (proved counterexamples).", "quantifier": "all states, all finite histories of operations, addresses, keys and values", "why_tests_cant": "a test performs some operations; that nothing else is affected is a statement about all keys and all histories", "anchors": ["go/ct/utils/adapter.go: ctRunContext", "go/ct/st/storage.go: Storage", "go/ct/st/transient_storage.go: TransientStorage", "go/ct/st/accounts.go: Accounts", "go/ct/st/call_journal.go: CallJournal.Call", "go/ct/st/logs.go: AddLog"]}
{"id": "C91", "title": "Transaction context generator of the conformance tests", "statement": "For all requests (variables naming the index of a blob hash, or of none), assignments, random numbers and iteration orders: requests that can be fulfilled are fulfilled by the generated number of hashes and the updated assignment, which keeps bound variables; requests that cannot are reported as unsatisfiable, except where a present and an absent index are bound to the same value, or index 0 is absent and a present one unbound (proved counterexamples). The number of hashes is 0, 1, or one more than a bound variable.", "quantifier": "all sequences of requests, assignments, iteration orders of Go maps, random numbers", "why_tests_cant": "random generator over a map in random order: each run sees one output", "anchors": ["go/ct/gen/transaction_context.go: TransactionContextGenerator"]}
{"id": "C92", "title": "Block context generator of the conformance tests", "statement": "For all requests (revisions, variables naming one or none of the last 256 blocks, variables at an offset), assignments, random numbers and iteration orders: generation does not panic; a generated block number and time stamp belong to a requested revision and bound variables are kept; variables are as requested, except for offset 0 of one of the last blocks and for blocks 1 to 255; unsatisfiable is reported only for requests that are, for a bound variable naming none of the last blocks, or for a positive offset of an unbound variable; each possible block number can be generated. The exceptions happen (proved counterexamples).", "quantifier": "all sequences of requests, assignments, iteration orders of Go maps, random numbers", "why_tests_cant": "random generator over maps in random order with wrapping arithmetic: each run sees one output", "anchors": ["go/ct/gen/block_context.go: BlockContextGenerator", "go/ct/common/revisions.go: GetForkBlock, GetForkTime, GetRevisionForBlock, GetBlockRangeLengthFor"]}
{"id": "C93", "title": "Accounts generator of the conformance tests", "statement": "For all requests (variables naming addresses of empty, non-empty, warm or cold accounts, or of accounts with bounded balances), assignments and random choices whose addresses are not bound ones: a generated account state and updated assignment fulfil every request, except those overlooked (an empty executing account; a non-empty account with only an upper bound; warm and cold through two variables bound to one address), bound variables are kept, and the executing account has 42 bytes of code; unsatisfiable is only reported for requests that are; there is no panic, and with fair random numbers generation ends. The exceptions happen (proved counterexamples).", "quantifier": "all sequences of requests, assignments, random choices and map iteration orders", "why_tests_cant": "random generator over maps in random order: each run sees one output", "anchors": ["go/ct/gen/accounts.go: AccountsGenerator", "go/ct/st/accounts.go: Accounts, AccountsBuilder", "go/ct/common/u256.go: RandU256Between"]}
{"id": "C94", "title": "State generator of the conformance tests", "statement": "For all requests to the state generator (status, mode, program counter, gas, refund, own address, code, stack, storages, accounts, contexts, self-destruction, values of variables), assignments and random choices: a generated state is valid (values in range, code and stack within limits, block number, time and revision agree) and fulfils every request under the updated assignment, which keeps the bound variables, except for the requests the single generators overlook; there is no panic, an unbound variable is only reported if one is, and unsatisfiable only if the requests are or a single generator reports it.", "quantifier": "all sequences of requests, assignments, random choices and map iteration orders", "why_tests_cant": "random generator made of a dozen random generators that share one assignment: each run sees one output", "anchors": ["go/ct/gen/state.go: StateGenerator.Generate", "go/ct/gen/selfdestruct.go: SelfDestructedGenerator"]}
{"id": "C95", "title": "Generated states satisfy the conditions they are generated for", "statement": "For all lists of conditions (comparisons, revisions, code and data, storage, accounts, self-destruction, block numbers, blob hashes) with constants in the usual ranges, and random choices: if GenerateSatisfyingState returns a state, each condition's Check on it is true, except for conditions overlooked by a generator; and for every rule of the specification restricting does not panic, and all conditions of a generated state hold except that an account that is to be empty may be the executing one, and block conditions of BLOCKHASH rules in the first 255 blocks; so the state meets the condition of the rule that decides whether its effect applies (C95_specification).", "quantifier": "all conditions and rules, random choices and map iteration orders", "why_tests_cant": "1595 rules and random states: each run sees one state per rule", "anchors": ["go/ct/rlz/conditions.go: Condition.Restrict, Condition.Check", "go/ct/rlz/expressions.go: Expression.Restrict, Expression.Eval", "go/ct/rlz/rules.go: Rule.GenerateSatisfyingState"]}
{"id": "C96", "title": "Test cases are enumerated completely and once", "statement": "For all lists of test values, parameters, generators, consumers and random choices: EnumerateTestCases calls the consumer, in order, for every combination of one value of each property and, for the state generated for it, every choice of the present word or a sample at the positions of the parameters, until the consumer aborts or the generator fails with an error other than unsatisfiable; it returns an error exactly in the last case; combinations without a state are skipped. The state is unchanged after its variants are enumerated. Per property the values are sorted and none occurs twice, and none is lost. TotalNumberOfCases bounds the number of calls, and is their number if every combination has a state with all parameters and the consumer never aborts.", "quantifier": "all test values, parameters, generators, consumers (including where they abort) and random choices", "why_tests_cant": "unit tests count the cases of a few rules; the lists of values and the points of aborts are unbounded", "anchors": ["go/ct/rlz/rules.go: Rule.EnumerateTestCases, enumerateParameters, TestCaseEnumerationInfo.TotalNumberOfCases", "go/ct/rlz/test_value.go: getPropertyTestValues, enumerateTestCases, enumerateTestStates, removeDuplicates"]}
