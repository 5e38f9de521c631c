{"id": "C01", "title": "Gate ids are fresh, sequential and stable", "statement": "Every successful gate-creating call on a circuit (input, constant, not, xor, and, or, and each output of module) returns an id never returned before on that circuit, namely the number of gates already present, and get_gate on that id returns exactly the gate requested; every call of the API, on any circuit, leaves get_gate of all previously returned ids unchanged.", "quantifier": "every history of API calls over any number of circuits and module storages, including calls with arbitrary (dangling) ids and calls that fail", "why_tests_cant": "the claim is about all interleavings of calls on aliased circuit handles; a test fixes one history", "anchors": ["src/bool_circuit.rs: add_gate, input, constant, not, xor, and, or, module, get_gate"]}
{"id": "C02", "title": "Calls that fail leave the circuit unchanged", "statement": "output on an id that is not a gate returns UnknownGate, module on an unregistered id returns UnknownModule, a module call that panics (arity underflow or self borrow) panics before any update: after each of these every circuit and every storage is exactly as before.", "quantifier": "every reachable state and every argument", "why_tests_cant": "needs all states and all bad arguments", "anchors": ["src/bool_circuit.rs: output, module, ModuleStorage::get_module"]}
{"id": "C03", "title": "Size counters agree with the gates of the fully inlined circuit", "statement": "After any history, num_wire = input_len + num_const + num_gate; input_len and output_len are the numbers of successful input() and output() calls; and, when modules are not modified after their first use, num_gate and num_const are the numbers of NOT/XOR/AND/OR gates and of constants of the circuit with all module calls expanded.", "quantifier": "every history of API calls (first part: any history in a build with overflow checks; last part: any history in which a called module is no longer modified)", "why_tests_cant": "the counters are accumulated incrementally through nested modules; only induction over histories covers all nestings", "anchors": ["src/bool_circuit.rs: num_wire, num_gate, num_const, add_gate, module"]}
{"id": "C04", "title": "The dependence map lists exactly the consumers of a gate", "statement": "get_depended_gates(g) is, with multiplicity, the list of gates that name g as an operand in creation order; a module call with m outputs contributes m entries per occurrence of g among its inputs; a gate nobody consumes has an empty list.", "quantifier": "every history of API calls and every id, existing or not", "why_tests_cant": "the evaluator's reference counting is correct only if this holds in every state", "anchors": ["src/bool_circuit.rs: add_dependence, get_depended_gates"]}
{"id": "C05", "title": "Input and output wires are numbered consecutively in call order", "statement": "The k-th successful input() call creates input wire k, bound for ever to the returned gate; the k-th successful output(g) call returns wire k and output_to_gate_id(k) = g for ever; wires outside the ranges are reported as unknown.", "quantifier": "every history of API calls", "why_tests_cant": "histories are unbounded", "anchors": ["src/bool_circuit.rs: input, output, input_to_gate_id, output_to_gate_id"]}
{"id": "C06", "title": "Constants are enumerated in creation order", "statement": "get_const_gates returns exactly the ids of the constant gates of the circuit itself, ascending, and each of them is a Const gate with the value passed to constant().", "quantifier": "every history of API calls", "why_tests_cant": "the writer relies on it in every state", "anchors": ["src/bool_circuit.rs: constant, get_const_gates"]}
{"id": "C07", "title": "Module ids identify circuits for ever", "statement": "register_module and sub_circuit return a module id never returned before by that storage; get_module on it returns that same circuit handle for ever, through every circuit sharing the storage; what a storage holds, its num_module and the answers of its get_module are at any time those of the list of the circuits registered in it so far - through a circuit, by sub_circuit or by register_module of the storage itself - in order; sub_circuit yields a fresh empty circuit that shares the storage, and touches no other circuit.", "quantifier": "every history of API calls over shared and separate storages", "why_tests_cant": "aliasing of Rc handles over all histories", "anchors": ["src/bool_circuit.rs: ModuleStorage::register_module, sub_circuit, get_module"]}
{"id": "C08", "title": "Existing gates never change their meaning", "statement": "If a gate of a circuit has a value under an input assignment, then after any further API calls on any circuits it still has the same value under that assignment.", "quantifier": "every history prefix, every continuation, every gate and input assignment", "why_tests_cant": "quantifies over all continuations of all histories", "anchors": ["src/bool_circuit.rs: all builder methods", "src/gates.rs: NXAOBoolGate"]}
{"id": "C09", "title": "module() on a registered module: success, arity and underflow", "statement": "module(mid, ids) on a registered module of another circuit returns output_len consecutive new gates whenever the module has at least input_len + output_len wires, and otherwise panics by usize underflow in a build with overflow checks (so every module that forwards an input directly to an output and has nothing else is unusable); the number of ids is not checked against the module's inputs.", "quantifier": "every reachable state, module and id list", "why_tests_cant": "which modules hit the underflow depends on every possible module body", "anchors": ["src/bool_circuit.rs: NXAOBoolCircuit::module"]}
{"id": "C10", "title": "A circuit handle cannot call itself as a module", "statement": "Calling module on a circuit handle with a module id that denotes that same circuit always panics (RefCell already mutably borrowed) and changes nothing, so direct recursion cannot be built; recursion through two circuits can be built.", "quantifier": "every reachable state", "why_tests_cant": "depends on aliasing in all states", "anchors": ["src/bool_circuit.rs: BoolCircuitRef::module, borrow_mut"]}
{"id": "C11", "title": "Circuit equality is an equivalence and, without module gates, implies equal function", "statement": "== on circuits is reflexive, symmetric and transitive; two equal circuits without module gates give equal values to equal gates; it ignores num_const and the module storage, so two equal circuits with module calls can compute different functions.", "quantifier": "all pairs and triples of circuits", "why_tests_cant": "universally quantified algebraic law", "anchors": ["src/bool_circuit.rs: impl PartialEq for NXAOBoolCircuit"]}
{"id": "C12", "title": "The evaluator never returns a wrong answer", "statement": "If eval_output(inputs) returns a list of bits, then the k-th bit is the value of the k-th output gate under the gate-by-gate semantics (NOT, XOR, AND, OR, constants, inputs, module calls by composition), for every k < output_len.", "quantifier": "every circuit obtainable by any history of API calls (dangling ids, recursion and modified modules included) and every input list", "why_tests_cant": "evaluation caches and evicts values by reference counts; only an invariant over all evaluation orders shows no stale or missing value is used", "anchors": ["src/evaluator.rs: eval_output, eval_single_output, eval_single_gate"]}
{"id": "C13", "title": "The evaluator terminates and succeeds on disciplined circuits", "statement": "If operands are existing gates, module calls have the module's arity and called modules are not modified afterwards, and if each output gate of each involved circuit either has no consumer, or is an argument of a module call with at least two outputs, or has a consumer that earlier outputs do not need, then eval_output terminates and returns Ok for every input of the right length: no reference-count underflow, no missing key, no UnknownEvaledBit.", "quantifier": "all such circuits, all nestings of modules, all inputs", "why_tests_cant": "success depends on reference counts over all evaluation orders", "anchors": ["src/evaluator.rs: eval_output, eval_single_gate"]}
{"id": "C14", "title": "Outputs that feed other gates can break evaluation", "statement": "There are disciplined circuits on which eval_output returns UnknownEvaledBit for every input (an output gate whose consumers were all evaluated for an earlier output is evicted and cannot be recomputed), and whether it happens depends on the order of output() calls.", "quantifier": "all inputs of the exhibited circuits", "why_tests_cant": "the unit tests contain no consumed output; the property is about which circuits fail", "anchors": ["src/evaluator.rs: eval_single_gate"]}
{"id": "C15", "title": "Wrong input length is a panic, not an error value", "statement": "eval_output panics whenever the number of inputs differs from input_len, for every circuit; the InvalidInputLen error is never returned.", "quantifier": "every state, circuit and input list", "why_tests_cant": "negative claim over all inputs", "anchors": ["src/evaluator.rs: eval_output"]}
{"id": "C16", "title": "A module call computes the composition", "statement": "The gates returned by module(mid, ids) have, under every input assignment, the values of the module's outputs when its inputs are the values of ids; nesting depth is arbitrary.", "quantifier": "every reachable state, module, arity-correct call and assignment", "why_tests_cant": "all modules and nestings", "anchors": ["src/bool_circuit.rs: module", "src/evaluator.rs: NXAOBoolGate::Module arm"]}
{"id": "C17", "title": "Primitive and derived gates have their truth tables", "statement": "not, xor, and, or, constant return gates whose value is the boolean operation of the operands' values; equivalent returns a gate that is true iff the operands are equal; identity returns a gate equal to its operand.", "quantifier": "every reachable state, operands and assignment", "why_tests_cant": "all contexts", "anchors": ["src/bool_circuit.rs: not, xor, and, or, constant, equivalent, identity"]}
{"id": "C18", "title": "Reading a Bristol file yields a circuit that computes the file", "statement": "If read succeeds on a fresh reader and circuit, then for every input the circuit's outputs are the values of the last wires of the file executed line by line (INV, XOR, AND, OR, EQW as copy), and input_len/output_len are the sums in the header.", "quantifier": "every text and every input vector", "why_tests_cant": "every file, every input", "anchors": ["src/bristol_converter.rs: BristolReader::read"]}
{"id": "C19", "title": "Well-formed files are accepted", "statement": "read succeeds on every text whose header and lines are well formed, whose gates use only wires already defined and whose last wires are all defined; it creates one gate per INV/XOR/AND/OR line and two per EQW line.", "quantifier": "every well-formed text", "why_tests_cant": "infinite family", "anchors": ["src/bristol_converter.rs: BristolReader::read"]}
{"id": "C20", "title": "A fresh reader rejects undefined wires; a reused reader does not", "statement": "On a fresh reader a gate line that reads a wire not defined before gives UnknownWire; a reader that already read another file silently resolves such wires to gates of the earlier circuit.", "quantifier": "every text (first part)", "why_tests_cant": "all files", "anchors": ["src/bristol_converter.rs: BristolReader::gate_of_wire"]}
{"id": "C21", "title": "Malformed files can panic the reader", "statement": "Header outputs exceeding the wire count, undefined output wires and gate lines with too few operands make read panic instead of returning an error.", "quantifier": "every file of the described shapes", "why_tests_cant": "negative claim over all files of a shape", "anchors": ["src/bristol_converter.rs: BristolReader::read"]}
{"id": "C22", "title": "EQ lines are read as copies, not as constants", "statement": "Bristol Fashion defines '1 1 b w EQ' as the constant b; read instead copies the value of wire b, for every file in which wire b is defined.", "quantifier": "all inputs of the exhibited file, and the general rule for all EQ lines", "why_tests_cant": "semantic deviation, not a crash", "anchors": ["src/bristol_converter.rs: \"EQ\" | \"EQW\""]}
{"id": "C23", "title": "Decimal printing and parsing of numbers round-trip", "statement": "Parsing the decimal printed for any usize returns that number; printing produces no whitespace; a token parses iff it is an optional + followed by digits with value below 2^64; splitting a line of printed tokens separated by spaces returns the tokens.", "quantifier": "all numbers below 2^64 and all token lists", "why_tests_cant": "2^64 values, unbounded lines", "anchors": ["src/bristol_converter.rs: parse::<usize>, split_whitespace, format!"]}
{"id": "C24", "title": "Written gate lines compute the circuit", "statement": "write terminates on every disciplined circuit, and executing the emitted gate lines on wires 0.. loaded with the inputs followed by the returned constant values gives, at the wire recorded for each written gate in the caller's map, the value of that gate; every output gate is recorded.", "quantifier": "all disciplined circuits (any module nesting), all inputs", "why_tests_cant": "flattening of arbitrarily nested modules; all inputs", "anchors": ["src/bristol_converter.rs: BristolNXAOWriter::write, write_all_gates, write_single_gate, update_wire"]}
{"id": "C25", "title": "Written lines are in evaluation order and assign each wire once", "statement": "Each emitted line reads only input wires, constant wires and wires assigned by earlier lines, and assigns the next unused wire number; no wire is assigned twice and none of the input or constant wires is assigned.", "quantifier": "all disciplined circuits", "why_tests_cant": "all circuits and nestings", "anchors": ["src/bristol_converter.rs: write_single_gate, update_wire"]}
{"id": "C26", "title": "The header's gate and input counts", "statement": "The second header line announces input_len + num_const inputs split as requested; write panics if num_first_input exceeds that sum; the announced gate count is an upper bound on the number of lines, and is exact when every gate of every involved circuit is reachable from its outputs.", "quantifier": "all disciplined circuits and all splits", "why_tests_cant": "all circuits", "anchors": ["src/bristol_converter.rs: BristolNXAOWriter::write"]}
{"id": "C27", "title": "Write then read preserves the function for constant-free circuits", "statement": "If a circuit and its modules contain no constants, all gates are reachable from the outputs, and the outputs are distinct unconsumed gates (possibly preceded by the whole output vector of one module call of the same kind), then reading the written text succeeds and the circuit read computes the same function and has the same input and output lengths.", "quantifier": "all such circuits, all inputs", "why_tests_cant": "round-trip over all circuits", "anchors": ["src/bristol_converter.rs: write, read"]}
{"id": "C28", "title": "No circuit with a constant survives write then read", "statement": "If a disciplined circuit has at least one constant (in it or in a called module) and at least one output, then the announced wire count is too large (constants are counted twice) and reading the written text always panics.", "quantifier": "all disciplined circuits with num_const > 0 and output_len > 0", "why_tests_cant": "universal negative claim", "anchors": ["src/bristol_converter.rs: write (num_wire + num_const)", "src/bool_circuit.rs: constant, num_wire"]}
{"id": "C29", "title": "Consumed or repeated outputs are silently miswritten", "statement": "There are disciplined constant-free circuits whose written text reads back without any error into a circuit computing a different function (an output that feeds another output; the same gate output twice).", "quantifier": "exhibited circuits, all inputs of them", "why_tests_cant": "silent wrong result; not covered by the unit tests", "anchors": ["src/bristol_converter.rs: write_all_gates"]}
{"id": "C30", "title": "A writer is single-use", "statement": "A second write on the same writer numbers the wires from where the first stopped, so the second text does not define its own inputs.", "quantifier": "exhibited circuit; general rule for the first wire number of every second write", "why_tests_cant": "history dependence", "anchors": ["src/bristol_converter.rs: BristolNXAOWriter::num_wire"]}
{"id": "C31", "title": "Bits and bytes convert back and forth", "statement": "bits2bytes_le(bytes2bits_le(v)) = v and bits2bytes_be(bytes2bits_be(v)) = v for every byte vector, and the converses for every bit vector whose length is a multiple of 8; bit i of byte k is bit 8k+i (le) or 8k+7-i (be).", "quantifier": "all vectors", "why_tests_cant": "unbounded length", "anchors": ["src/utils.rs: bits2bytes_le, bytes2bits_le, bits2bytes_be, bytes2bits_be"]}
{"id": "C32", "title": "Partial bytes panic", "statement": "bits2bytes_le and bits2bytes_be panic iff the number of bits is not a multiple of 8.", "quantifier": "all bit vectors", "why_tests_cant": "all lengths", "anchors": ["src/utils.rs: bits2bytes_le, bits2bytes_be"]}
{"id": "C33", "title": "Hex conversion round-trips and rejects exactly malformed text", "statement": "hex2bytes(bytes2hex(v)) = v; hex2bytes succeeds iff the length is even and every character is a hex digit (either case), and bytes2hex(hex2bytes(s)) is s in lower case.", "quantifier": "all byte vectors and strings", "why_tests_cant": "unbounded length", "anchors": ["src/utils.rs: bytes2hex, hex2bytes"]}
{"id": "C34", "title": "ext_gcd terminates and returns Bezout coefficients of the gcd", "statement": "For all integers a, b (any sign) ext_gcd returns (x, y, d) with a*x + b*y = d and |d| = gcd(a, b); for non-negative a and b, d is non-negative.", "quantifier": "all pairs of integers", "why_tests_cant": "unbounded integers, recursion depth unbounded", "anchors": ["src/utils.rs: ext_gcd"]}
{"id": "C35", "title": "Bitwise module circuits", "statement": "build_not/and/or/xor_circuit(n) register a module that evaluates to the bitwise operation of its n-bit operands.", "quantifier": "all n, all operands, any circuit they are built in", "why_tests_cant": "2^(2n) operands for every n", "anchors": ["src/circuits/logic/mod.rs: build_not_circuit, build_and_circuit, build_or_circuit, build_xor_circuit"]}
{"id": "C36", "title": "Equality module circuits", "statement": "build_eq_circuit(n) registers a module that evaluates to true iff the operands are equal; build_neq_circuit to the negation.", "quantifier": "all n and operands", "why_tests_cant": "2^(2n) operands for every n", "anchors": ["src/circuits/logic/mod.rs: build_eq_circuit, build_neq_circuit"]}
{"id": "C37", "title": "AllocBits operations and mux", "statement": "!, &, |, ^, their assigning forms, eq and neq on allocated bit vectors evaluate to the bitwise operations, and mux(true_bits, s) selects true_bits when s is true and self when s is false; constructors read inputs in order and pad with false.", "quantifier": "all N, operands and contexts", "why_tests_cant": "all widths and values", "anchors": ["src/circuits/logic/mod.rs: AllocBits"]}
{"id": "C38", "title": "Adder circuit is addition modulo 2^n", "statement": "build_add_circuit(n) for n >= 1 registers a module evaluating to (a + b) mod 2^n in little endian; for n = 0 it panics.", "quantifier": "all n, a, b", "why_tests_cant": "2^(2n) operands for every n", "anchors": ["src/circuits/arithmetic/int.rs: build_add_circuit"]}
{"id": "C39", "title": "Subtractor circuit is subtraction modulo 2^n", "statement": "build_sub_circuit(n, adder) registers a module evaluating to (a - b) mod 2^n.", "quantifier": "all n >= 1, a, b", "why_tests_cant": "2^(2n) operands for every n", "anchors": ["src/circuits/arithmetic/int.rs: build_sub_circuit"]}
{"id": "C40", "title": "Multiplier circuit is multiplication modulo 2^n", "statement": "build_mul_circuit(n, adder) registers a module evaluating to (a * b) mod 2^n.", "quantifier": "all n >= 1, a, b", "why_tests_cant": "2^(2n) operands for every n", "anchors": ["src/circuits/arithmetic/int.rs: build_mul_circuit"]}
{"id": "C41", "title": "Extended multiplier gives the full product", "statement": "build_mul_extend_circuit(n, adder of 2n bits) registers a module with 2n outputs evaluating to a * b exactly.", "quantifier": "all n >= 1, a, b", "why_tests_cant": "2^(2n) operands for every n", "anchors": ["src/circuits/arithmetic/int.rs: build_mul_extend_circuit"]}
{"id": "C42", "title": "Comparison circuits compare the wrapped difference", "statement": "less(a,b) is the sign bit of (a - b) mod 2^n; less_or_eq, larger, larger_or_eq are the corresponding boolean combinations. They agree with signed comparison whenever the signed difference fits in n bits and with unsigned comparison when both operands are below 2^(n-1), and disagree with signed comparison exactly when the signed difference overflows.", "quantifier": "all n >= 1, all operands", "why_tests_cant": "2^(2n) operands for every n", "anchors": ["src/circuits/arithmetic/int.rs: build_less_circuit, build_less_or_eq_circuit, build_larger_circuit, build_larger_or_eq_circuit"]}
{"id": "C43", "title": "AllocInt constants and constructors", "statement": "from_biguint(v) has value v and succeeds iff the whole number of bytes of v fits in N bits (so it panics for every v, zero included, when N < 8); zero and one have values 0 and 1; from_gate_ids zero-extends and panics iff given more than N ids.", "quantifier": "all N and v", "why_tests_cant": "all widths and values", "anchors": ["src/circuits/arithmetic/int.rs: AllocInt::from_biguint, from_gate_ids, zero, one"]}
{"id": "C44", "title": "AllocInt shifts", "statement": "shift_left(k) is multiplication by 2^k modulo 2^N for k <= N, and yields a vector of k > N bits when k > N; shift_right(k) is the signed floor division by 2^k for k <= N and panics for k > N.", "quantifier": "all N >= 1, k and values", "why_tests_cant": "all widths, shifts and values", "anchors": ["src/circuits/arithmetic/int.rs: shift_left, shift_right"]}
{"id": "C45", "title": "AllocInt expressions compute in Z/2^N", "statement": "For every expression tree over inputs, constants, +, -, *, unary minus, shifts, and the six comparison methods eq, neq, less, less_or_eq, larger and larger_or_eq (0 or 1, in the sense of C42), building it with AllocInt succeeds, and outputting and evaluating the result gives the value of the expression modulo 2^N (shift_right on the signed representative).", "quantifier": "all expression trees, all N >= 1, all inputs", "why_tests_cant": "unbounded trees", "anchors": ["src/circuits/arithmetic/int.rs: impl Neg/Add/Sub/Mul for AllocInt, eq .. larger_or_eq, shifts, output"]}
{"id": "C46", "title": "Fp addition and subtraction", "statement": "With 2p <= 2^(N-1) and operands below p, the Fp adder evaluates to a+b reduced modulo p except that a + b = p gives p instead of 0, and the Fp subtractor evaluates to (a - b) mod p exactly.", "quantifier": "all N, p, a, b in range", "why_tests_cant": "all moduli and operands", "anchors": ["src/circuits/finite_field/mod.rs: build_add_circuit, build_sub_circuit"]}
{"id": "C47", "title": "Fp additive inverse is not canonical", "statement": "For every 0 < a < p, the circuit for (a + (-a)) == 0 evaluates to false.", "quantifier": "all N, p, a in range", "why_tests_cant": "universal negative claim", "anchors": ["src/circuits/finite_field/mod.rs: impl Neg for AllocFp, eq"]}
{"id": "C48", "title": "Fp multiplication always yields zero", "statement": "The configured constant r2 is 0 for every modulus and exponent, and with p <= 2^(N-1) the Fp multiplier evaluates to 0 for all operands.", "quantifier": "all N, p, r_exp, all operands", "why_tests_cant": "the unit test compares 0 with 0", "anchors": ["src/circuits/finite_field/mod.rs: AllocFpConfig::new, build_mul_circuit"]}
{"id": "C49", "title": "Montgomery reduction circuit", "statement": "With m = val * p_minus_inv mod 2^r_exp and t = (val + m p)/2^r_exp computed without overflow, the reduction circuit evaluates to t - p if t >= p and to -t mod 2^N otherwise (so it is the Montgomery reduction only when t >= p or t = 0).", "quantifier": "all N, p, r_exp, val in range", "why_tests_cant": "all moduli and operands", "anchors": ["src/circuits/finite_field/mod.rs: build_mont_red"]}
{"id": "C50", "title": "Modular inverse used for Montgomery form", "statement": "For odd p and r = 2^r_exp with r_exp >= 1, mod_inv(p, r) is the inverse of p modulo r in [0, r), and p_minus_inv = r - mod_inv(p, r) satisfies p * p_minus_inv = -1 mod r.", "quantifier": "all odd p, all r_exp", "why_tests_cant": "unbounded integers", "anchors": ["src/circuits/finite_field/mod.rs: mod_inv, AllocFpConfig::new"]}
{"id": "C51", "title": "The shipped 64-bit adder adds", "statement": "build_adder64 succeeds on an empty circuit and evaluating it gives (a + b) mod 2^64, little endian, for all 64-bit a and b.", "quantifier": "all 2^128 operand pairs", "why_tests_cant": "2^128 operand pairs", "anchors": ["src/circuits/arithmetic/adder64.txt", "src/circuits/arithmetic/mod.rs: build_adder64"]}
{"id": "C52", "title": "The shipped 64-bit subtractor subtracts", "statement": "build_sub64 succeeds on an empty circuit and evaluating it gives (a - b) mod 2^64 for all 64-bit a and b.", "quantifier": "all 2^128 operand pairs", "why_tests_cant": "2^128 operand pairs", "anchors": ["src/circuits/arithmetic/sub64.txt"]}
{"id": "C53", "title": "The shipped 64-bit negation negates", "statement": "build_neg64 succeeds on an empty circuit and evaluating it gives (-a) mod 2^64 for all 64-bit a.", "quantifier": "all 2^64 operands", "why_tests_cant": "2^64 operands", "anchors": ["src/circuits/arithmetic/neg64.txt"]}
{"id": "C54", "title": "The shipped 64x64 multiplier gives the 128-bit product, high word first", "statement": "build_mult2_64 succeeds and evaluating it gives the high 64 bits of a*b followed by the low 64 bits, each little endian.", "quantifier": "all 2^128 operand pairs", "why_tests_cant": "2^128 operand pairs", "anchors": ["src/circuits/arithmetic/mult2_64.txt"]}
{"id": "C55", "title": "The shipped dividers divide", "statement": "build_divide_unsigned_64 evaluates to the quotient of unsigned division and build_divide_signed_64 to the truncated signed quotient, for all dividends and nonzero divisors.", "quantifier": "all operand pairs", "why_tests_cant": "2^128 operand pairs", "anchors": ["src/circuits/arithmetic/udivide64.txt", "src/circuits/arithmetic/divide64.txt"]}
{"id": "C56", "title": "The shipped AES-128 circuit encrypts", "statement": "build_aes128 succeeds and evaluating it on a plaintext and key gives the AES-128 encryption (FIPS-197), with the bit order of the file.", "quantifier": "all 2^256 inputs", "why_tests_cant": "2^256 inputs", "anchors": ["src/circuits/cryptography/AES-non-expanded.txt", "src/circuits/cryptography/mod.rs: build_aes128"]}
{"id": "C57", "title": "Field expressions stay in the interval [0, p]", "statement": "With 1 <= p and 2p < 2^(N-1), every expression of +, -, unary -, * over operands and constants in [0, p] builds without error; the finished circuit evaluates to a value in [0, p] given by a small recursive specification (sum reduced once when above p, products zero); without products that value is congruent modulo p to the ring value of the expression.", "quantifier": "all N, p, r_exp, expressions of any size, number of variables, operand values", "why_tests_cant": "expressions of any size over all operands", "anchors": ["src/circuits/finite_field/mod.rs: AllocFp and its operators"]}
{"id": "C58", "title": "The shipped dividers where no quotient exists", "statement": "With divisor 0 build_divide_unsigned_64 still evaluates successfully, to all ones; build_divide_signed_64 gives -1 for a >= 0, 1 for -2^63 < a < 0 and 2 for a = -2^63. The one quotient that does not fit, -2^63 / -1, comes out as -2^63.", "quantifier": "all dividends", "why_tests_cant": "2^64 dividends, behaviour not documented anywhere", "anchors": ["src/circuits/arithmetic/udivide64.txt", "src/circuits/arithmetic/divide64.txt"]}
{"id": "C59", "title": "How an evaluation can end", "statement": "On a disciplined circuit, whatever its outputs, eval_output with the right number of inputs terminates and returns the correct bits, or Err(UnknownEvaledBit), or panics on a missing key of num_depend_map; no other error, no arithmetic panic, no endless recursion. Circuits without module calls and without a gate using the same gate twice never panic. The panic does happen: x XOR x after a re-evaluated output, and a module call with distinct arguments one of which is evicted while another is evaluated.", "quantifier": "all disciplined histories, circuits, inputs, both build modes", "why_tests_cant": "all circuits and output orders; needs a state invariant of the reference counts", "anchors": ["src/evaluator.rs: eval_output, eval_single_gate"]}
{"id": "C60", "title": "Outputs declared in creation order always evaluate", "statement": "If the outputs of a disciplined circuit, and those of every circuit it calls, are declared in non-decreasing order of gate id, eval_output succeeds with the right bits even when outputs are used by other gates or declared more than once.", "quantifier": "all disciplined histories, circuits, inputs, both build modes", "why_tests_cant": "all circuits; the failing order differs from the working one only in the sequence of output calls", "anchors": ["src/evaluator.rs: eval_output, eval_single_gate", "src/bool_circuit.rs: output"]}
{"id": "C61", "title": "Imperative integer programs compute what they say", "statement": "A program of statements 'allocate an input', 'bind a variable to an expression', 'assign to a variable' (+= and the like) and 'output a variable', over integer expressions of any size with sharing, builds without error; the circuit has the program's inputs and outputs in program order and evaluates to the values the program computes modulo 2^N, however often variables are used, overwritten and output, provided no variable is output after an output that came after a comparison of it (or, on one bit, any use of it); one that violates this can fail to evaluate.", "quantifier": "all N >= 1, programs of any length, inputs, both build modes", "why_tests_cant": "programs of any length; interaction of sharing, output order and the evaluator's reference counts", "anchors": ["src/circuits/arithmetic/int.rs: AllocInt and its operators, output", "src/evaluator.rs: eval_output"]}
{"id": "C62", "title": "Written texts compute what the program said", "statement": "Bit-vector expressions, field expressions and imperative integer programs, built through the allocator API on a fresh circuit, can be written whatever the split of the inputs; the text parses as a Bristol program, and executing its lines on the inputs followed by the returned constants leaves, on the wires the returned map assigns to the outputs, the values the program computes. Unlike for the evaluator no order of uses and outputs has to be respected.", "quantifier": "all N >= 1, expressions and programs of any size, inputs, input splits, both build modes", "why_tests_cant": "programs of any length; the text is never executed by the code base", "anchors": ["src/bristol_converter.rs: BristolNXAOWriter::write", "src/circuits/arithmetic/int.rs: AllocInt and its operators, output", "src/circuits/finite_field/mod.rs: AllocFp"]}
{"id": "C63", "title": "A text that was read can be written again", "statement": "A circuit read from a Bristol text can be written with any split of its inputs, without constants; the new text parses, announces the same number of inputs in the chosen split, and its lines, on the inputs alone, leave on the wires of the returned map the outputs of the original text (EQ and EQW understood as copies).", "quantifier": "all texts the reader accepts with no more outputs than wires, all inputs and splits, both build modes", "why_tests_cant": "texts of any length; no test reads and writes the same text", "anchors": ["src/bristol_converter.rs: BristolReader::read, BristolNXAOWriter::write"]}
{"id": "C64", "title": "Hierarchical designs compute what they say", "statement": "A design is a list of modules, each a Bristol text or a body of shared bit expressions that may call any earlier module, and a top body. If the texts run, the bodies are well formed (argument counts, indices), and the outputs of each module are distinct, no inputs and read by none of its gates, then building it - sub_circuit and read for a text, sub_circuit and gate calls for a body, then the top body - succeeds; the finished circuit can be written to a text that computes the composition of the functions of texts and bodies, and evaluates to it when the top body does not read its own outputs (without that condition evaluation can fail). A text read into a module computes the text's function.", "quantifier": "all libraries of any depth and width, texts, bodies, inputs, both build modes", "why_tests_cant": "designs of any depth; no test nests modules more than one level or mixes texts and bodies", "anchors": ["src/bool_circuit.rs: module, sub_circuit", "src/bristol_converter.rs: BristolReader::read", "src/evaluator.rs: eval_output"]}
{"id": "C65", "title": "Word programs from the shipped arithmetic circuits", "statement": "A program of named 64-bit words over +, -, unary -, the low and high word of *, unsigned and signed /, and the bitwise operations, where each arithmetic operation is a call of a module read from the shipped text and each bitwise one is gates, builds without error; with outputs that are operations rather than mere names the circuit evaluates to the values of the program (arithmetic modulo 2^64, division by zero included, with the results of C58), and without that condition it can be written to a text with those values.", "quantifier": "programs of any length with any sharing, any number of inputs and outputs, all operand values, both build modes", "why_tests_cant": "programs of any length over 2^64 values per input", "anchors": ["src/circuits/arithmetic/mod.rs: build functions and their texts", "src/bool_circuit.rs: sub_circuit, module", "src/evaluator.rs: eval_output"]}
{"id": "C66", "title": "Block programs from the shipped AES circuit", "statement": "A program of named 16-byte blocks over inputs, constants, exclusive or and AES-128 encryption (a call of the module read from the shipped text, keys being blocks of the program) builds without error, evaluates to the values of the program when its outputs are operations, and can be written to a text with those values in any case. In particular cipher block chaining over n blocks built this way encrypts every message of n blocks under every key and initial block.", "quantifier": "programs of any length with any sharing, all n, all keys and messages, both build modes", "why_tests_cant": "2^128 keys and messages of any length", "anchors": ["src/circuits/cryptography/mod.rs: build_aes128", "src/bool_circuit.rs: sub_circuit, module", "src/evaluator.rs: eval_output"]}
{"id": "C67", "title": "Dead gates spoil the announced number of gates", "statement": "The text the writer produces has exactly one gate line for every NOT, XOR, AND and OR gate of the expanded circuit that some output depends on (a module call counted as one unit), and one returned constant for every constant of a circuit reached. The number of gates in its header is therefore right if and only if the expansion has no dead gate, and too large otherwise; a circuit with a dead gate or a constant, and at least one output, makes a text the reader panics on. Every adder that build_add_circuit makes has a dead gate (the OR of the lowest bits), so any program over AllocInt that does more than move bits from inputs to outputs cannot be read back once written.", "quantifier": "all disciplined histories and circuits, input splits, both build modes; all N >= 1 and programs of any length", "why_tests_cant": "all circuits; the writer's tests never read the text back", "anchors": ["src/bristol_converter.rs: BristolNXAOWriter::write, write_header, BristolReader::read", "src/circuits/arithmetic/int.rs: build_add_circuit"]}
{"id": "C68", "title": "Sizes of the built circuits in closed form", "statement": "The modules that AllocIntConfig, AllocFpConfig and AllocBitsConfig build have the number of gates, constants, inputs and outputs given by formulas in N (and r_exp): for instance the adder has 6N-3 gates (N >= 1), quadratic for the multiplier; num_gates, num_consts, input_len and output_len of a circuit that a program over integers, field elements or bit vectors builds are the sums over its operations of the sizes of the modules called, whatever the operands and the sharing.", "quantifier": "all N >= 1, p, r_exp, programs and expressions of any size, both build modes", "why_tests_cant": "all widths and programs", "anchors": ["src/circuits/arithmetic/int.rs: AllocIntConfig::new and the build functions", "src/circuits/finite_field/mod.rs: AllocFpConfig::new", "src/circuits/logic/mod.rs: AllocBitsConfig", "src/bool_circuit.rs: module"]}
{"id": "C69", "title": "Writing to a sink that takes pieces, is interrupted or fails", "statement": "Whatever the buffer size and however the sink under the BufWriter answers, write either behaves exactly as on a perfect sink (same result, same returned map, same writer state) and the bytes taken by the sink followed by those in the buffer are the text; or some answer was an error or zero bytes, write returns it as IOError and the bytes accepted are a part of the text from its start. If no answer is a failure the first case holds and after dropping the writer the sink holds exactly the text.", "quantifier": "all circuits and heaps, input splits, buffer sizes, sequences of answers of the sink", "why_tests_cant": "all sequences of partial writes and failures; the tests write to memory", "anchors": ["src/bristol_converter.rs: BristolNXAOWriter::new, write, write_single_gate, update_wire"]}
{"id": "C70", "title": "A text can be lost without notice", "statement": "write never flushes. If the text fits into the buffer, write returns success although nothing has reached the sink, and if the sink then fails the flush made when the writer is dropped, the text is lost and no error is reported. In every case what the sink holds after the drop is a part of the text from its start.", "quantifier": "all circuits, texts shorter than the buffer, all failing sinks", "why_tests_cant": "needs a failing sink; holds for all circuits with short texts", "anchors": ["src/bristol_converter.rs: BristolNXAOWriter::write"]}
{"id": "C71", "title": "Reading from any source is safe", "statement": "Whatever the source yields - any lines, failing anywhere - and however read ends, the circuits stay disciplined, every other circuit and the storages are unchanged, the target only grew, and the reader's map names gates of the target only. An error is one of NotFoundLine, LineSplitError, UnknownWire, NotSupportedGate, ParseIntError, IOError and leaves the outputs as they were; the panics are an index, a missing key and, with overflow checks, arithmetic. A source failing on line 1, 2, 3 or a gate line makes read return the IOError, in the state of the lines before without the outputs (unless the lines before had failed already); a failure on line 4 is ignored, as is any after the first empty gate line.", "quantifier": "all sources, all disciplined heaps, reader states, both build modes", "why_tests_cant": "all inputs, malformed ones included, and all points of failure", "anchors": ["src/bristol_converter.rs: BristolReader::read"]}
{"id": "C72", "title": "Reading arbitrary bytes", "statement": "Bytes that are UTF-8 are read exactly like the ASCII-separated text with a space for every non-ASCII character of Unicode's White_Space property; on ASCII bytes this is the reading of C18 to C23. A line that is not UTF-8 makes read fail unless it is line 4 or follows an empty gate line. A line is UTF-8 exactly when it is a sequence of encodings (RFC 3629) of Unicode scalar values.", "quantifier": "all byte sequences, heaps, both build modes", "why_tests_cant": "all byte sequences", "anchors": ["src/bristol_converter.rs: BristolReader::read"]}
{"id": "C73", "title": "The size counters are machine words", "statement": "num_wire, num_gate and num_const are usize. In builds without overflow checks every history behaves as with unbounded counters, except that the three counters of every circuit are their true values modulo 2^64. In builds with overflow checks a history whose circuits all stay below 2^64 inlined wires behaves exactly as with unbounded counters, and the first call that would leave this range panics, having changed at most one circuit, whose gates and outputs stay. 6+5k calls suffice for a circuit of 2^k gates, so a tower of 64 modules overflows after 326 calls: num_gate is then 0 and the header written is '0 1'. Evaluation never looks at the counters; write does the same on words as on numbers when the sums of its header fit, and otherwise panics before writing or writes them modulo 2^64.", "quantifier": "all histories, circuits and calls, both build modes, all k", "why_tests_cant": "a circuit of 2^64 gates cannot be enumerated or evaluated, and random programs do not nest 64 levels", "anchors": ["src/bool_circuit.rs: module, add_gate, not, constant, num_gate", "src/bristol_converter.rs: BristolNXAOWriter::write"]}
{"id": "C74", "title": "How deep the calls of evaluation and writing nest", "statement": "eval_single_gate and write_single_gate recurse. Whatever the circuits, their calls never nest deeper than the longest chain of gates (operand by operand, and from a module call to the output gates of the called circuit) that starts at an output; on disciplined circuits this is at most the number of gates, so both terminate and what they return does not depend on the stack beyond that. Conversely an evaluation does nest as deep as the chain of first operands that are not inputs (and first outputs of called circuits) from the first output, for any inputs, and a write as deep as the corresponding chain: with less stack they cannot finish. A chain of n negations needs n nested calls for every n, and a circuit whose chain returns to a gate - buildable from an operand id that does not exist yet, or from two circuits that call each other - can be evaluated with no finite stack, although every call that built it succeeded.", "quantifier": "all heaps for the bound, all histories for the rest, all inputs, stacks, writer states, both build modes", "why_tests_cant": "stack exhaustion depends on depth, not on any input, and no finite set of circuits bounds it", "anchors": ["src/evaluator.rs: eval_output, eval_single_gate", "src/bristol_converter.rs: BristolNXAOWriter::write, write_all_gates, write_single_gate"]}
{"id": "C75", "title": "Borrows of the shared cells", "statement": "Circuits and module storages are RefCells, and borrow and borrow_mut hand their guards to the caller. With no guard held, every call behaves as if there were no flags at all and leaves none set, also when it fails or panics; the only conflict is a circuit calling itself. With guards held, a call panics exactly when it meets one - any guard on its receiver, any guard on the storage when a module is registered, a borrow_mut guard on the storage or on the called circuit, or the call of itself - and then nothing has changed; otherwise it does what it does without guards. A call through a borrow_mut guard is the call on the handle. At any time the flags are exactly the guards the caller owns, and a borrow_mut guard excludes every other on its cell. While anybody holds a guard, no call of anybody else changes the circuit, or registers a module in the storage. Questions and evaluation are not disturbed by borrow guards; borrow_mut guards can only make them panic, never change the answer.", "quantifier": "all histories of calls, guards taken and dropped and calls through guards, all flags, both build modes", "why_tests_cant": "all interleavings of guards and calls", "anchors": ["src/bool_circuit.rs: BoolCircuitRef::borrow, borrow_mut and all its methods, ModuleStorageRef", "src/bool_circuit.rs: register_module, sub_circuit, module", "src/evaluator.rs: eval_output, eval_single_gate"]}
{"id": "C76", "title": "An evaluation evaluates what is needed, once", "statement": "On disciplined circuits whose outputs are not consumed too early (C13) every evaluation enters eval_single_gate exactly as often as the expansion of the circuit has logic gates, constants and module calls that its outputs need, whatever the inputs and the build mode: nothing is evaluated twice or in vain, although values are dropped as soon as their last consumer has used them. These numbers are determined by the circuit, the gates and constants are at most num_gates and num_consts, and the gates are as many as the lines that the writer writes.", "quantifier": "all disciplined histories, circuits, inputs, both build modes", "why_tests_cant": "counts calls inside the evaluator, for all circuits and inputs", "anchors": ["src/evaluator.rs: eval_output, eval_single_output, eval_single_gate"]}
{"id": "C77", "title": "No evaluation blows up", "statement": "Whatever the order of the outputs, the inputs, the build mode and the outcome (success, error, panic, or interrupted anywhere), an evaluation of a disciplined circuit enters eval_single_gate at most as often as this: for every output once, and for every output and every gate once and once for each operand (vain entries into inputs already dropped), where a module call adds what the called circuit may take. Without module calls this is at most outputs * (1 + 3 * gates) entries. The factor of the outputs is real: a chain of negations after a constant with its outputs in the reverse order is evaluated again for every output (15 entries for 5 gates and 5 outputs), since an output that was consumed earlier is dropped and computed again.", "quantifier": "all disciplined histories, circuits, inputs, stack depths, both build modes", "why_tests_cant": "a worst case over all circuits and all points of failure", "anchors": ["src/evaluator.rs: eval_output, eval_single_output, eval_single_gate"]}
{"id": "C78", "title": "Reading into a circuit that is not empty", "statement": "The circuit given to read need not be new: with a new reader, into any circuit that nobody calls yet, a text is accepted exactly when it parses and its program runs, whatever the circuit contains. Its inputs and outputs come after those there: the circuit then computes its old outputs on the old inputs followed by the outputs of the text on the further ones, the gates grow by one per line (two per copy), the constants stay, and nothing else changes. Two texts read into one circuit with a reader each lie side by side.", "quantifier": "all disciplined histories, circuits that are not called, texts, inputs, both build modes", "why_tests_cant": "all circuits and texts; the tests only read into new circuits", "anchors": ["src/bristol_converter.rs: BristolReader::new, read"]}
{"id": "C79", "title": "One reader for several texts", "statement": "A reader keeps its wires from one call of read to the next. Texts read one after the other with one reader into one circuit make it compute this: each program is executed on the next inputs, which overwrite the first wires, while all other wires still carry what the programs before left on them; the outputs follow each other. A sequence is accepted in a debug build exactly when every text parses and the programs run this way, so a text that a new reader rejects because of an undefined wire may be accepted and connected to the text before.", "quantifier": "all disciplined histories, circuits that are not called, sequences of texts of any length, inputs, both build modes", "why_tests_cant": "all sequences of texts", "anchors": ["src/bristol_converter.rs: BristolReader (gate_of_wire), read"]}
{"id": "C80", "title": "Builders on circuits in use", "statement": "build_adder64, build_sub64, build_neg64, build_mult2_64, the two 64-bit divisions and build_aes128 can be applied to any circuit that nobody calls yet, in any state, any number of them in any order. Each succeeds, its inputs and outputs come after those there, the rest of the heap is unchanged, and the circuit computes its old outputs followed by those of the builder. A circuit that could be evaluated still can: evaluation terminates and returns what it returned before on the old inputs, followed by the sum, difference, negation, product, quotient or AES ciphertext of the new ones. The same holds for reading any text whose lines do not read its output wires.", "quantifier": "all disciplined histories, circuits that are not called, sequences of builders, 64-bit words and blocks, texts, both build modes", "why_tests_cant": "all contents of the circuit, all words, all sequences", "anchors": ["src/circuits/mod.rs: build_circuit_from_bristol", "src/circuits/arithmetic/mod.rs: build_adder64 .. build_divide_unsigned_64", "src/circuits/cryptography/mod.rs: build_aes128", "src/bristol_converter.rs: BristolReader::read", "src/evaluator.rs: eval_output"]}
{"id": "C81", "title": "What is freed and what leaks", "statement": "Circuits and storages are reference counted, a circuit holds a handle of its storage and a storage one of each module. Whatever a caller does with the handles they hold - calls, clones, get_module, taking the storage of a circuit, drops in any order - the strong count of a cell is the number of handles the caller has of it plus those inside live cells; no drop goes wrong, and everything a held handle reaches is live. A cell is live exactly if it is reached from a held handle or from a live cell on a cycle of handles; so without cycles cells are freed exactly when no held handle reaches them, and everything is freed when no handle is left. A live cell on a cycle is never freed, nor anything it reaches, whatever the caller does later. Every sub_circuit, and every registration of a circuit in its own storage, through a circuit or on the storage itself, makes such a cycle: the storage and all modules it ever gets leak. A circuit that is a module of no live storage is freed with its last handle.", "quantifier": "all sequences of calls, clones and drops of a caller that uses handles it holds, both build modes", "why_tests_cant": "leaks do not show in results; all orders of drops", "anchors": ["src/bool_circuit.rs: BoolCircuitRef::new, clone, ModuleStorageRef::new, clone, get_module, register_module", "src/bool_circuit.rs: NXAOBoolCircuit::new, sub_circuit, register_module"]}
{"id": "C82", "title": "Formatting with Debug", "statement": "Circuits, storages and their handles derive Debug, which follows handles into the cells behind them. Formatting a cell ends exactly if the cell reaches no cell that is on a cycle of handles, and then nests at most as deep as there are cells. After a sub_circuit call (or the registration of a circuit in its own storage) formatting the circuit, the sub-circuit, their storage and every circuit of the storage, at any later time, recurses for ever: a failing assert_eq! on such circuits overflows the stack instead of reporting.", "quantifier": "all histories, cells, depths, both build modes", "why_tests_cant": "non-termination at every depth, for all histories", "anchors": ["src/bool_circuit.rs: derive(Debug) of BoolCircuitRef, ModuleStorageRef, ModuleStorage, NXAOBoolCircuit", "src/bool_circuit.rs: sub_circuit"]}
{"id": "C83", "title": "Reading and writing while guards are held", "statement": "read takes borrow_mut of the circuit it reads into, for the time of each call it makes on it. If the caller holds no guard on that circuit, whatever other guards there are, it returns, builds and remembers what it does without guards, and all borrow flags are afterwards as before. If a guard of borrow or borrow_mut is held on it, the first input, gate or output made panics and neither circuit nor reader is changed; a text that fails before that fails with the same error. write only borrows for reading: guards of borrow never disturb it; a guard of borrow_mut on the circuit, on a circuit called in it, or on the storage of one of these can only make it panic - on the circuit itself before a single byte is written, on a called circuit or its storage before anything of the call is written - and never changes what it writes or returns.", "quantifier": "all states of the cells and guards, texts, readers, circuits, writers, caller's maps, both build modes", "why_tests_cant": "needs guards held across calls and recursion into modules; tests hold none", "anchors": ["src/bristol_converter.rs: read, write, write_all_gates, write_single_gate", "src/bool_circuit.rs: BoolCircuitRef::borrow, borrow_mut"]}
{"id": "C84", "title": "A writer after a failed write", "statement": "A write that succeeds leaves the writer at its circuit. One that fails (an error of the sink, an unknown gate, a panic caught by the caller) leaves it at a circuit reached from its own by module calls: if the failure happens while the gates of a module are written, c_ref is not restored, and since circuits do not call themselves the writer is then at another circuit. The next write succeeds on a working sink and writes the text of that other circuit, with wires counted on from where the failed write stopped. If the caller sets the public fields c_ref and num_wire again, the next write returns and writes exactly what a new writer on the same BufWriter does.", "quantifier": "all heaps, circuits, sinks, buffers, caller's maps and kinds of failure", "why_tests_cant": "needs a sink that fails inside a module, at every point", "anchors": ["src/bristol_converter.rs: BristolNXAOWriter (c_ref, num_wire), write, write_single_gate (Module branch)"]}
{"id": "C85", "title": "What the failures of read say", "statement": "When read fails, the failure describes the text. NotFoundLine(n), n from 1 to 4: the text has exactly n - 1 lines. LineSplitError: a line has fewer tokens than it must have or announces. A parse error: a token of the header or of a gate line is not a number of a usize, with this error. UnknownWire(w): a gate line uses w as operand, and w is no input, no result of an earlier line, and was not known to the reader before. NotSupportedGate(t): a gate line has the type t, and t is none of INV, XOR, AND, OR, EQ, EQW. A panic at an index: a line has fewer operands than its gate needs, or no result. A panic at a key: a wire below the number of wires is never defined. An overflow panic: debug build, and the outputs announced are more than the wires. There is no other failure. The outcome depends only on the text, the build mode and which wires the reader knows, not on the circuit or its contents; a release build ends as a debug build unless that panics with an overflow.", "quantifier": "all texts, readers used with one circuit before (also after failed readings and other calls), circuits, heaps, both build modes", "why_tests_cant": "all texts that fail, with the order in which the problems are found", "anchors": ["src/bristol_converter.rs: BristolReader::read, BristolError"]}
{"id": "C86", "title": "Ids, names and messages", "statement": "Within each of the three error enums two errors with the same message are the same error, except that an I/O error can have any message; so two readings that fail with the same message fail with the same error. to_str of the gates INV, XOR, AND, OR is a name from which read makes such a gate, with input_len operands; INPUT, CONST and MODULE are not read. In circuits built by disciplined calls input_len of a gate is the number of its operands, output_len is 1, and input_len and output_len of a module gate are those of the module. Sums of ids are exact if they fit into 64 bits, else a debug build panics and a release build returns the remainder; addition is commutative and associative, also as to panics, zero is neutral and the only id for which is_zero holds. An id is shown as a number that is parsed back to it.", "quantifier": "all errors, ids of 64 bits, gates, disciplined histories, readings, both build modes", "why_tests_cant": "all pairs of errors and ids", "anchors": ["src/gates.rs: WireId, GateId, ModuleId (Display, Add, AddAssign, Zero), Gate", "src/bool_circuit.rs: BoolCircuitError", "src/bristol_converter.rs: BristolError", "src/evaluator.rs: EvaluatorError"]}
{"id": "C87", "title": "The two kinds of 64-bit arithmetic agree", "statement": "On every list of input bits the circuits that AllocInt<64> builds for a + b, a - b and -a give the same bits as those of build_adder64, build_sub64 and build_neg64. For a * b they give the last 64 outputs of build_mult2_64, and build_mul_extend_circuit gives the 128 outputs of build_mult2_64 with the two words exchanged.", "quantifier": "all inputs of 64 and 128 bits, new circuits in all states of the heap, all pairs of build modes", "why_tests_cant": "2^128 pairs of operands", "anchors": ["src/circuits/arithmetic/int.rs: AllocInt, build_mul_extend_circuit", "src/circuits/arithmetic/mod.rs: build_adder64, build_sub64, build_neg64, build_mult2_64"]}
{"id": "C88", "title": "How evaluations end on any circuit", "statement": "After any sequence of calls, also ones that use gates that do not exist, let gates use themselves or change modules after they were called: if the number of inputs is not that of the circuit, eval_output panics. Otherwise it returns the outputs, does not end, or fails with a cause in the circuit or in one it calls: UnknownGate(g) means that g is an operand of a gate and is no gate; UnknownEvaledBit(g) that g is used by a gate and is an input or the first of two different operands; a panic at a missing key that a gate has the same operand twice or is a call with at least two arguments; a failed assertion that a call has another number of arguments than its module has inputs. No other error and no other panic occurs.", "quantifier": "all histories (disciplined or not), circuits, inputs, both build modes", "why_tests_cant": "all circuits, including malformed ones, and all evaluation orders", "anchors": ["src/evaluator.rs: eval_output, eval_single_output, eval_single_gate"]}
{"id": "C89", "title": "When circuits can be written", "statement": "After any sequence of calls, disciplined or not, and with a writer in any state and any map of the caller, write panics if the number of first inputs is larger than that of inputs and constants. Otherwise it succeeds, does not end, or returns UnknownGate(g), where the outputs need (through operands and called modules) a gate g that does not exist in its circuit, or UnknownInput(w), where they need a call with more arguments than its module has inputs, namely w. It never panics at a missing key, and has no other error. With an empty map and enough stack it succeeds exactly if neither is the case and no chain of needed gates is infinite; gates that no output needs do not matter.", "quantifier": "all histories (disciplined or not), circuits, states of the writer, maps", "why_tests_cant": "all circuits, including malformed and cyclic ones", "anchors": ["src/bristol_converter.rs: write, write_all_gates, write_single_gate"]}
{"id": "C90", "title": "The map of the caller", "statement": "On a circuit built by disciplined calls, write succeeds with a writer in any state and any map of gates to wires given by the caller. A gate (a call: all its outputs) in the map is not written again, and its entry is kept, as are entries of ids that are no gates; entries of inputs and constants are replaced by their wires. All former entries and all outputs are in the map afterwards. Every line defines the next wire, and there are at most as many lines as the circuit counts gates, less those of the gates in the map (for a call, of its module). If the wires given lie below those of the lines and carry any values, every wire of the final map carries the value that follows from those values and the inputs; if they carry the true values, the outputs are true. Such values always exist. The header does not depend on the map.", "quantifier": "all disciplined histories, circuits, maps, states of the writer, inputs, values of the given wires", "why_tests_cant": "all circuits and all maps", "anchors": ["src/bristol_converter.rs: write, write_all_gates, write_single_gate, update_wire"]}
{"id": "C91", "title": "The map of the caller after a failed write", "statement": "On a circuit built by disciplined calls, with a writer in any state and any map, write on a sink that may fail returns and leaves in the map what it does on a sink that takes everything, or returns an error of the sink. After the error the map is the one given, if the header failed. Otherwise it has all former entries, those of all inputs and constants, and a part of those of the gates: entries of ids that are no gates, of gates (calls: with all outputs) that were in the map and of gates not needed are as given, and every gate or call that is complete in the map has the wire that it would have had on the other sink. On circuits of any history, whatever the result, each wire in the map is from the given map or was handed out, except that after a failed line of a gate of the circuit itself the map holds this gate with the wire that is handed out next; without calls in the circuit this is so whenever the sink fails after the header. If such a write is tried again with the same writer and map on a sink that now works, it succeeds, this gate is not written, and in the map it has the wire of the first input.", "quantifier": "all histories (disciplined where said), circuits, sinks, buffers, maps, states of the writer", "why_tests_cant": "a sink that fails at every possible point, for all circuits and maps", "anchors": ["src/bristol_converter.rs: write, write_all_gates, write_single_gate, update_wire"]}
{"id": "C92", "title": "The consumers edited by the caller", "statement": "The field gate_dependence_map is public. Let a caller change it between calls in any way. Then every call returns what it would have returned, and all other fields are as they would have been. If eval_output returns bits, these are still the values of the outputs, as many as there are outputs, in both build modes. On circuits built by disciplined calls it returns them for all inputs of the right number if no list is shorter than the calls made it, and those of outputs are longer; in particular if the caller enters each output among its own consumers, so that this one line in output would repair the defects of C14 and C59. In release builds it also returns them if all lists are empty (and no gate has 2^64 consumers), because the counters wrap; in debug builds it then never returns bits of a circuit with an output that has an operand. write does the same as without the changes, for every state of the writer and map.", "quantifier": "all histories of calls and edits (disciplined where said), all edits, circuits, inputs, both build modes", "why_tests_cant": "all possible contents of the field at all points of all histories", "anchors": ["src/bool_circuit.rs: BoolCircuitRef, gate_dependence_map, output, add_dependence", "src/evaluator.rs: eval_output, eval_single_gate", "src/bristol_converter.rs: write"]}
{"id": "C93", "title": "Gates and outputs exchanged by the caller", "statement": "The fields gate_map and output_map are public. Between calls let a caller replace, in any circuit, also in modules already called, constants by constants, gates of two operands by gates of two operands with the same operands in the same or in the other order, and the gates of outputs by other gates of the circuit. Then every call returns what it would have returned, and the numbers of inputs and outputs, the consumers and the modules are as they would have been. If eval_output returns bits, these are the values of the outputs of the edited circuits, as many as there are outputs. If the calls were disciplined and only gates were replaced, it returns them for every circuit that meets the condition of C13 without the replacements; with replaced outputs, for every circuit that meets it with them. write succeeds, and the text computes the values of the edited circuit. A gate that leads, through operands and called modules, to no replaced gate and no call of a replaced output has the values it would have had. (With other operands, evaluation can fail.)", "quantifier": "all histories of calls and replacements (disciplined where said), circuits, inputs, both build modes", "why_tests_cant": "all replacements at all points of all histories", "anchors": ["src/bool_circuit.rs: BoolCircuitRef::borrow_mut, NXAOBoolCircuit (gate_map, output_map)", "src/evaluator.rs: eval_output, eval_single_gate", "src/bristol_converter.rs: write"]}
{"id": "C94", "title": "The course of an evaluation does not depend on the bits", "statement": "In any state of the circuits, also ones that no calls of the API reach, let there be two lists of as many input bits. Then the two evaluations of a circuit return as many bits, or fail with the same error or panic, or both do not end, and in each case enter eval_single_gate equally often; they also need the same depth of the stack. This is still so if the second evaluation is done after constants were replaced by constants and gates of two operands by other gates with the same operands: no failure and no amount of work tells anything about the bits or the functions of the gates.", "quantifier": "all heaps, circuits, pairs of inputs of the same length, replacements, depths of the stack, both build modes", "why_tests_cant": "2^n inputs and all states, including unreachable ones; tests cannot show that an error never depends on a bit", "anchors": ["src/evaluator.rs: eval_output, eval_single_output, eval_single_gate"]}
{"id": "C95", "title": "What an output depends on", "statement": "An input can reach a gate if it is the gate or reaches an operand of it, or, if the gate is a call, if it reaches an argument and the corresponding input of the module can reach the output of the module. After any sequence of calls of the API, disciplined or not: if two evaluations of a circuit return bits and the inputs that can reach an output are the same, then the output is the same. If two lists of as many bits agree on the inputs that can reach any output, the two evaluations are the same, also if they fail. In particular a module may ignore an argument, and then what is only passed there does not matter.", "quantifier": "all histories (disciplined or not), circuits, pairs of inputs, both build modes", "why_tests_cant": "all pairs of inputs of all circuits", "anchors": ["src/evaluator.rs: eval_output, eval_single_output, eval_single_gate"]}
{"id": "C96", "title": "The text does not contain the constants", "statement": "Take two programs of calls that differ only in the values of the constants they make. Every call returns the same in both, and write, on every circuit, with a writer in any state and any map, writes the same text, returns the same map and as many constants, or fails in the same way after the same text. The values of the constants are only in the returned list. The same holds of any two heaps whose circuits differ only in the values of constants, also malformed ones, for instance if the caller exchanges a constant of a module through the public field gate_map.", "quantifier": "all pairs of histories (disciplined or not), all pairs of heaps that differ in constants, circuits, states of the writer, maps", "why_tests_cant": "a property of pairs of executions, for all circuits and all values", "anchors": ["src/bristol_converter.rs: write, write_all_gates, write_single_gate, update_wire", "src/bool_circuit.rs: constant, BoolCircuitRef"]}
{"id": "C97", "title": "What read ignores", "statement": "Two texts are read alike (same result or failure, same circuit, same wires remembered, with a reader and heap in any state) if corresponding lines have the same tokens. White space, the whole fourth line, everything after the first empty line behind it, and the number of gates in the first line (as long as it is a number) do not matter. Further tokens at the ends of lines do not matter either, in the header or after the type of a gate, unless the shorter text fails with LineSplitError, which the further tokens may remedy; so every text that is accepted is accepted and read the same with them.", "quantifier": "all pairs of texts so related, readers, circuits, heaps, both build modes", "why_tests_cant": "all pairs of texts, accepted or not", "anchors": ["src/bristol_converter.rs: BristolReader::read"]}
{"id": "C98", "title": "Builds with and without overflow checks", "statement": "A build without overflow checks never has an arithmetic panic, in no call of the circuit API, no evaluation and no reading, in any state of the heap, also a malformed one. Unless the build with checks has one, both return the same and leave the same state. In calls it can only be module, on a module with fewer wires than inputs and outputs together, and it then changes nothing (the size counters taken as unbounded; for their overflow see C73); so a history without such a call builds the same circuits in both builds. Evaluations of circuits built by any calls, disciplined or not, in either build, are the same in both, also as to errors and the nesting of calls.", "quantifier": "all histories, heaps, circuits, inputs, stack depths, readers, texts", "why_tests_cant": "needs both builds on the same inputs, for all inputs", "anchors": ["src/bool_circuit.rs: module", "src/evaluator.rs: eval_output, eval_single_gate", "src/bristol_converter.rs: BristolReader::read"]}
