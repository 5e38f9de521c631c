# Formal model of circuit_converters in Coq

## 1. Trusted base

* **The kernel.** Coq 8.16.1; the gate rechecks every module with `coqchk`. No kernel check is switched off, there is no plugin.
* **Axioms.** `Print Assumptions` says "Closed under the global context" for every theorem of `MANIFEST.json`. The listing is
  `ASSUMPTIONS.txt`, one line per theorem, written by `tools/assumptions.py`. The axioms `Coq.ssr.ssrunder.Under_rel.*` that `coqchk`
  prints belong to the module system of the `ssreflect` plugin files that std++ loads; no theorem uses them.
* **Libraries.** Coq's standard library and std++ (finite maps, lists).
* **The model.** That the definitions of `Base`, `Circuit`, `Eval`, `Text`, `Reader`, `Writer`, `Io`, `Words`, `Utils`, `Logic`, `Int`, `Fp` say what the Rust
  text says. Every definition cites file and lines. Nothing was run: the model was compared with `/repo` by reading only.
* **The specifications.** The definitions the theorems are stated with: `Sem.v`, `Bristol.v`, `Aes.v`, and the small definitions at the top of each
  `Prop_*.v`.
* **The netlists.** `Net_*.v` contain the shipped `.txt` files as strings. `tools/gen_netlists.py --check` compares them byte by byte with `/repo`.
  `Cert_*.v` (certificates) need not be trusted.

## 2. What is modelled

The crate is single threaded (`Rc`/`RefCell`), so a state is a heap of circuits and a heap of module storages; every API function becomes
a total Gallina function returning an outcome and the new heap.

| file (rocq/theories) | contents |
|---|---|
| `Base.v` | outcomes (`Ok`/`Err`/`Panic`/`NoFuel`), error enums, usize arithmetic with a build mode (`Debug` panics on overflow, `Release` wraps mod 2^64), the heap monad |
| `Circuit.v` | `gates.rs`, `bool_circuit.rs`: gates, `NXAOBoolCircuit`, `ModuleStorage`, `BoolCircuitRef` (aliasing = equal locations; RefCell conflict = explicit panic, justified by C75), the API as `op`/`step` |
| `Eval.v` | `evaluator.rs`, with both hash maps and the reference counting |
| `Text.v` | `lines`, `split_whitespace`, `parse::<usize>`, `format!` of integers on ASCII text |
| `Reader.v`, `Writer.v`, `Io.v`, `WriterMap.v` | `bristol_converter.rs`: in memory, and over failing sources and sinks and arbitrary bytes; in `WriterMap.v` the caller's map is a part of the state, so that it is also known after an error |
| `Messages.v` | the arithmetic and `Display` of the ids in `gates.rs`, all variants of the three error enums with their `#[error(..)]` messages |
| `Words.v` | `bool_circuit.rs` and the header of `write` once more, with the size counters as machine words |
| `Cells.v`, `CellsIo.v` | `bool_circuit.rs` and `evaluator.rs`, and `bristol_converter.rs`, once more, with the borrow flags of the RefCells and guards held by the caller |
| `Own.v` | `bool_circuit.rs` once more, with reference counts, handles of the caller and drops; the derived `Debug` |
| `EvalCost.v`, `EvalBound.v` | `evaluator.rs` once more, with a counter; how much work evaluation does |
| `Utils.v` | `utils.rs` |
| `Logic.v`, `Int.v`, `Fp.v` | `circuits/logic`, `circuits/arithmetic/int.rs`, `circuits/finite_field` |
| `Netlist.v`, `Net_*.v` | `circuits/arithmetic/mod.rs`, `circuits/cryptography/mod.rs` and the shipped netlists as text |
| `Sem.v` | **specification**: value of a gate as an inductive relation, independent of the evaluator |
| `Bristol.v` | **specification**: meaning of a Bristol text as a straight-line program |
| `Aes.v` | **specification**: AES-128 (FIPS-197), S-box from inversion in GF(2^8) |
| `Effects`, `Inv`, `Disc`, `DepsFacts`, `OpFacts`, `Counts`, `SemFacts`, `CircuitFacts` | invariants of the heap and monotonicity of the semantics |
| `EvalSound`, `EvalComplete`, `EvalPad`, `EvalModes`, `EvalDec`, `DiscDec` | evaluator: soundness, completeness, possible outcomes; decision procedures used in examples |
| `Build`, `Blocks`, `LogicFacts`, `BuildEval`, `ZBits`, `IntFacts`, `IntOps`, `FpFacts` | Hoare-style lemmas for builder code |
| `Cuts`, `Rows`, `Sbox`, `AesCheck`, `Cert_*` | certificate checkers for netlists, proved sound, and certificates |
| `Prop_*.v` | the property theorems, each with an example showing its hypotheses satisfiable |

Loops are structural recursion over lists or counts; the two genuinely recursive functions (evaluator, writer) take fuel and return
`NoFuel` when it is exhausted (non-termination or stack overflow); the theorems say "for every sufficiently large fuel", and C74 makes that explicit.

### Disciplined histories
Several properties need the caller to behave. `disciplined` histories: (D1) operands of gates are existing gates of the circuit, (D2) module
calls pass as many ids as the module has inputs, (D3) a circuit that has been called as a module is not modified any more. The builder
functions of the crate are shown to be disciplined (`dreach` in the frame lemmas). Properties that hold without this are proved for every history.

## 3. What is not modelled, and simplifications (also stated at each definition)
* Counters (`gate_index`, `input_len`, `output_len`, `num_module`) are unbounded `N` when only incremented by one: 2^64 calls cannot happen.
  Subtractions, and sums of numbers read from a file, carry the usize behaviour explicitly. `Circuit.v` has unbounded `num_wire`, `num_gate`
  and `num_const`; `Words.v` models them as machine words and C73 relates the two.
* `HashMap` = finite map. Iteration order is never used by the code.
* `Reader.v` and `Writer.v` are in memory: no I/O errors, texts are bytes split at ASCII white space. `Io.v` adds failing sources and sinks, the
  `BufWriter`, UTF-8 and Unicode white space, and C69-C72 relate the two. `BufWriter`, `BufRead::lines`, `str::from_utf8` and
  `split_whitespace` are modelled from their documented behaviour. After an error of `write` the sink and the buffer (C69), the
  writer's circuit (C84) and the caller's map (C91) are described.
* RefCell flags: `Circuit.v`, `Reader.v` and `Writer.v` have none; `Cells.v` models them for the circuit API and the evaluator (C75), `CellsIo.v` for the
  reader and the writer (C83), with a flag that cannot overflow.
* The generic parameters `G`, `C` are instantiated with the only instance, NXAO.
* Public fields are assumed to be changed only through the API, except `gate_dependence_map` (the consumers of each gate), which C92 lets the caller
  change at will, and `gate_map` and `output_map`, in which C93 lets the caller exchange gates and outputs.
* The stack is modelled as the number of nested calls of the two recursive functions (the fuel; C74 gives the exact needs), not in bytes.
  Memory exhaustion is not modelled; which cells are freed and which leak is (`Own.v`, C81).
* The messages of I/O errors are the caller's; those of `ParseIntError` and `fmt::Error` are copied from the standard library (C86).
* `hex` and `num-bigint` are external: the contract used is written in `Utils.v`.
* Code that is commented out in `/repo` (sha256, `fix_input`, `modify_with_const_gates`, `to_mont_exp`) and the `#[cfg(test)]` modules are not modelled.

## 4. How each property is proved
| properties | file | method |
|---|---|---|
| C01-C11 | `Prop_Circuit` | invariants over `step`, by induction over op lists; C07 compares each storage with the list of registrations read off the calls; C11 by algebra on the derived equality and a computed witness |
| C12-C17 | `Prop_Eval` | C12: induction on fuel, "every cached value is the gate's value". C13: invariant on reference counts with a ghost set, well-founded on (module rank, gate id). C14, C15: witness circuits and the model's text |
| C59, C60 | `Prop_Outcomes` | possible outcomes from a weaker invariant that survives re-evaluation; ordered outputs reduce to C13's condition |
| C18-C23 | `Prop_Reader` | `read` characterised by `parse_prog`; simulation between lines and gates; decimal lemma by strong induction |
| C24-C30 | `Prop_Writer` | writer invariant: executing the lines emitted so far gives the recorded values; counting argument for constants; C27, C28 compose with the reader |
| C31-C34, C50 | `Prop_Utils` | list induction; sweep over a byte; Euclid induction |
| C35-C37 | `Prop_Logic` | builder lemmas over the semantic relation, lifted to the evaluator by C13; expressions by structural induction |
| C38-C45 | `Prop_Int` | same, with `ZBits`: bit lists as integers modulo 2^n |
| C46-C49, C57 | `Prop_Fp` | same; C47-C49 are the defects listed below |
| C51-C53 | `Prop_Arith64` | netlist text parsed inside Coq, truth tables on cuts, full-adder chains; run by `vm_compute`, soundness of the checker proved |
| C54 | `Prop_Mult64` | partial products and weighted sums on cuts |
| C55, C58 | `Prop_Div64` | one row of the restoring divider per quotient bit (`Rows`), then induction over rows |
| C56 | `Prop_Aes` | linear forms over GF(2) between S-box cuts, each S-box by exhaustive truth table |
| C61 | `Prop_Straight` | programs: invariant on which variables' wires may still be evicted |
| C62, C63 | `Prop_Export` | writer theorems applied to heaps reached by builders and by the reader |
| C64 | `Prop_Design` | induction over libraries of modules; cell analysis decides which outputs are read |
| C65, C66 | `Prop_Library` | C64 with the netlists of C51-C56 as the texts |
| C67 | `Prop_Live` | the writer's record of visited gates is the set the outputs need; induction over the call graph. The adder by following the gate no later step mentions; programs by following a call of it |
| C68 | `Prop_Cost` | a cost judgement on builders: counters and storage before and after, composed along binds and loops |
| C69, C70 | `Prop_Io` | step-by-step simulation between the writer of `Writer.v` and its copy over a `BufWriter` |
| C71 | `Prop_Source` | a safety judgement composed along the reader; cutting the list of lines |
| C72 | `Prop_Source` | characters are one ASCII byte or several high bytes; lines and tokens commute with replacing white space; texts are the encodings of scalar values by RFC 3629 (`C72_encoding`) |
| C73 | `Prop_Words` | simulation between the API on words and on numbers, per call, then by induction over histories; a tower of modules by induction on its height |
| C74 | `Prop_Depth` | upper bounds by induction on fuel, over arbitrary heaps; acyclic chains of distinct gates are no longer than the list of all gates; lower bounds follow the first call at every step, whose state only knows the inputs |
| C75 | `Cells`, `Prop_Borrow` | `Cells` models the API with RefCell flags and the caller's guards; each method is computed from arbitrary flags and compared with `run_op`; a ghost list of guards agrees with the flags after every event; the evaluator with flag checks is simulated by the one without |
| C76 | `EvalCost`, `Prop_Work` | the evaluator with a counter of the entries into `eval_single_gate` (`count_output`) has the outcomes of the one without; the invariant of C13 is extended by the sum of the weights of the gates evaluated so far; `work` counts what the outputs need, independently of the evaluator, and is compared with `needs` (C67) |
| C77 | `EvalBound`, `Prop_Work` | for each output anew: a gate evaluated on behalf of this output stays in the map until all its consumers have been evaluated on behalf of it (an inequality on the reference counts, which hold leftovers of earlier outputs), so it is entered once; a Hoare-style rule carries the count through all outcomes. `C77_repeated` shows that C76 needs its hypothesis |
| C78 | `ReaderFacts`, `Prop_Readings` | the simulation of C18 started from any circuit (`cnt`, `over`: the inputs from the current number on) and an empty reader; old outputs keep their gates and values because circuits only grow; C78 is C79 for one text |
| C79 | `ReaderFacts`, `Prop_Readings` | the simulation started from any reader map whose wires carry known functions; induction on the texts. `run_texts` is the specification: programs executed one after the other on the same wires, without circuits or readers |
| C80 | `ReaderFacts` (`free`, `read_free_at`), `Prop_Append` | gates added by a reading have operands among the added gates only, none of them a gate of an output wire, and none is a module call; so the outputs there keep their consumers and the condition of C13 (`evaluable`) is kept; values from C78, evaluation from C13 and soundness; for the builders the netlists of C51 to C56; sequences by induction |
| C81 | `Own`, `Prop_Own` | reference graph `children`, strong counts and held handles added to the heap; the drop of a handle is a work list (`drain`) whose fuel, the total of the counts, is proved sufficient; invariant: count = held + references from live cells; an edge-closed set in which every cell has a predecessor survives every drop; live cells are traced back to a held handle or, by pigeonhole, to a cycle |
| C82 | `Own` (`formats`), `Prop_Own` | recursion of the derived `Debug` over the reference graph with fuel; not finishing gives a path longer than the number of cells, hence a cycle; finishing is strictly decreasing along edges, so no cycle |
| C83 | `CellsIo`, `Prop_BorrowIo` | reader and writer written once more over the cells of C75; two simulations for the reader (circuit free, circuit held), one for the writer that carries the circuit being written and that gates come from it |
| C84 | `Io`, `Prop_Stuck` | Hoare predicate on the writer of C69 that carries the circuit being written; at a call the failure state of the module is the failure state of the call; acyclicity by the ranks of disciplined heaps; the retry from `writes_ok` and the simulation of C69; the repair by comparing two runs |
| C85 | `Prop_Errors` | the reader is simulated by a check without a circuit (`check`) that only knows which wire numbers are known (`read_check`); the cause of each failure is stated on the lines and tokens of the text and found by following the check; `knows` (the reader's gates are gates of the circuit) is kept by readings, failed ones included, and by calls |
| C86 | `Messages`, `Prop_Messages` | messages compared from the front (a number ends at the first character that is no digit) and, where a message contains the caller's token, from the back; arithmetic of 64-bit sums; names against the table of the gates the reader makes (C85) |
| C87 | `Prop_Agree` | every list of bits is the bits of integers, and both sides compute the same function of the integers (C41, C45 and C51-C54); bits of a number split into words |
| C88 | `Prop_Faults` | on heaps of any history (invariant `hinv` only): a Hoare triple over the evaluator's state whose failures name a cause in a reachable circuit; induction over the depth. The cause is necessary for the failure, not sufficient (whether a value is dropped too early depends on the order of the outputs, see C14) |
| C89 | `Prop_WriteFaults` | on heaps of any history: a triple over the writer's state and the map of wires whose failures name a gate needed by the outputs (relation `needs` of C74); every key of the map is a gate whose requirements are sound and end, so a success shows this for the outputs; finite branching turns well-foundedness into a depth |
| C90 | `Prop_Given` | the triple of C24 with the hypothesis of an empty map replaced: the invariant speaks of wires that carry the values of a valuation obeyed by all gates that are not settled by the map; the gates that are settled are subtracted in the count of lines. `C90_values`: such a valuation exists for any values of the settled gates (induction over ids), `C90_true`: for the true values the outputs are true |
| C91 | `WriterMap`, `Prop_Map` | refinement: the writer with the map in its state and that of C69 agree step by step; then, along the run with a perfect sink (C90), each step that fails leaves a map between the map before and the map after the perfect step; a Hoare predicate on any heap for the wires of the entries; the retry from C90 |
| C92 | `EvalPad`, `Prop_Fields` | histories of calls and arbitrary edits of the consumers: a relation between circuits that agree up to the consumers, kept by every call; soundness of the evaluator (C12) only needs the other fields; completeness (C60) once more, with the uses granted by the edited lists at least those made (an empty list grants 2^64 in release builds); the writer by a simulation; without consumers a Hoare predicate on the evaluator: every counter is 0 and only gates without operands have bits |
| C93 | `Prop_Patch` | histories of calls and exchanges in `gate_map` and `output_map`, of modules already called too: a relation between circuits that agree up to the exchanges, kept by every call; the invariants of histories carry over along it, so that C12, C13 and C24 hold of the edited circuits; untouched gates by induction on the value of a gate; an exchange of operands is shown to break evaluation |
| C94 | `Prop_Course` | simulation between two runs of the counted evaluator (C76), in two heaps that differ at most in the functions of gates and on two lists of as many bits: the same keys in the map of bits, the same counters, the same count; no invariant of the heap is needed |
| C95 | `Prop_Course` | which input wires can reach a gate, as an inductive relation that looks into called modules; noninterference by induction on the value of a gate, then C12 for evaluations that succeed and C94 for those that fail |
| C96 | `Prop_Hidden` | noninterference of the writer: a simulation between its runs on two heaps that differ at most in the values of constants, with equal outputs, wires and maps and only the remembered constants related by their wires; a second simulation over all calls shows that programs that differ in constants build such heaps |
| C97 | `Prop_Tokens` | an inductive relation between the lines of two texts that says what may differ; the reader in any state follows it line by line, with equal tokens always, with further tokens as long as the shorter text does not fail for lack of tokens |
| C98 | `Prop_Modes` | one relation between the monadic programs of the two builds (equal unless the checked one panics, no panic in the other), compositional through calls, evaluator and reader; with C88 evaluations of built circuits agree without exception |

Nothing in the list is partial. Properties that describe a defect state the defect exactly, with the condition under which it shows.

## 5. Defects of the code found on the way (all proved)
* An output that other gates use can be evicted before it is returned: `Err(UnknownEvaledBit)` (C14), even a panic (C59). Declaring outputs in
  creation order avoids it (C60).
* That defect comes from the number of consumers alone. If `output` entered the gate among its own consumers, which is one line (or the caller does it,
  the field is public), every circuit built by disciplined calls would evaluate to its outputs (C92). The counters wrap: with all consumers
  removed release builds evaluate everything correctly, debug builds nothing that has an operand (C92).
* A module that gets an input after it was called is still written at the call, without an error; the text then uses a wire that nothing defines and
  cannot be read back (C89). Evaluating such a circuit fails an assertion (C88).
* The header ignores the caller's map: a text written with gates already in the map announces wires that do not exist, and cannot be read back; the
  operands of an output that is in the map are written although nothing reads them (C90).
* `module` does not check the number of ids; a module with fewer wires than inputs and outputs together (it forwards an input) panics by underflow
  in builds with overflow checks (C09).
* Evaluation and writing recurse once per gate on a path: a long chain of gates, or a circuit that (by a dangling operand or mutual calls) leads
  back to itself, exhausts the stack and aborts the process (C74).
* The size counters overflow after 326 calls: a panic, or a circuit of 2^64 gates that claims to have none (C73).
* `==` on circuits ignores the module storage, so equal circuits can compute different functions (C11).
* The reader treats `EQ` (constant) as a copy (C22), panics on short lines and undefined outputs (C21), and a reused reader accepts undefined wires (C20).
  An I/O error on line 4 is dropped (C71).
* The writer's header counts constants twice, so a circuit with a constant cannot be read back (C28). Outputs that are shared or used by other gates
  are written to wrong positions without notice (C29). A writer cannot be used twice (C30). The header also counts dead gates, and every integer
  adder has one, so no text of an integer program with an operator can be read back (C67).
  `write` does not flush, so a text shorter than the buffer can be lost with success reported (C70). A write that fails inside a module leaves the
  writer at the module: the next write succeeds and writes the module instead of the circuit (C84).
* `update_wire` makes the entry of a gate in the caller's map before it writes the line, and counts the wire after. If the line cannot be written the entry stays:
  a second `write` with the same writer and map omits this gate, and gives its wire to the first input, so that other gates silently compute with
  the input (C91).
* Comparisons are those of the wrapped difference (C42); `from_biguint` needs room for whole bytes, so it panics for
  every number, even 0, when N < 8 (C43); `shift_left` by more than N gives too long a vector, `shift_right` panics (C44).
* Fp: addition uses `>` so that p itself is a result (C46); a + (-a) is p, not 0 (C47); products are always 0 (C48);
  Montgomery reduction returns -t for 0 < t < p (C49).
* Every `sub_circuit` closes a cycle of strong references (circuit, storage, module): the storage and all its modules leak (C81), and `{:?}` of any
  circuit of that storage recurses until the stack overflows (C82).
* Shipped netlists: the multiplier puts the high word first (C54); division by zero and overflow (C58).

## 6. Testing the theorems
`tools/mutate.py` edits one definition of the model as a bug would (`seeded/mutations.json`, written by `seeded/gen_mutations.py`), rebuilds a
scratch copy, replaces every proof that fails by `Admitted` there, and lists with `Print Assumptions` which property theorems rest on a failed proof.
`seeded/LOG.jsonl` has one line per attempt.
